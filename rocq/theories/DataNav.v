(** * The airport table shipped with the package

    Generated from openap/data/nav/airports.csv, lines 2-13796, in file order: ICAO code, latitude and
    longitude in units of 1e-5 degree, altitude in feet, country code as written in the file.  The name and
    location columns are left out. *)
From Coq Require Import String ZArith List.
Import ListNotations.
Open Scope string_scope.
Open Scope Z_scope.

(** one line of openap/data/nav/airports.csv (columns 1-5 of line 1) *)
Definition apt : Type := (string * Z * Z * Z * string)%type.

(** openap/data/nav/airports.csv:2-501 *)
Definition apts00 : list apt := [
("AGAF",(-919195),16094687,20,"SB");
("AGAR",(-985819),16197568,41,"SB");
("AGAT",(-887023),16100875,24,"SB");
("AGBT",(-856517),15811903,10,"SB");
("AGEV",(-757289),15659635,70,"SB");
("AGGA",(-870687),16068115,5,"SB");
("AGGB",(-1130089),15979539,55,"SB");
("AGGC",(-670870),15639402,5,"PG");
("AGGD",(-974413),15983947,80,"SB");
("AGGF",(-810996),15957686,5,"SB");
("AGGH",(-943199),16004523,28,"SB");
("AGGK",(-1044744),16189332,20,"SB");
("AGGL",(-1072224),16579150,10,"SB");
("AGGM",(-832812),15725684,14,"SB");
("AGGN",(-809422),15686162,13,"SB");
("AGGO",(-742585),15555679,20,"PG");
("AGGP",(-963928),16142251,80,"SB");
("AGGS",(-857737),15787176,5,"SB");
("AGGT",(-1084623),16245068,100,"SB");
("AGGU",(-986359),16082340,10,"SB");
("AGGV",(-758804),15872821,7,"SB");
("AGGY",(-908887),15921333,42,"SB");
("AGKU",(-802398),15694597,20,"SB");
("AGRC",(-813073),15714153,20,"SB");
("AGRM",(-816334),15763691,46,"SB");
("ANYN",(-54123),16691170,24,"NR");
("AYAY",(-633763),14590078,5100,"PG");
("AYBK",(-542704),15466757,11,"PG");
("AYBM",(-805086),14293878,98,"PG");
("AYCH",(-602755),14496830,4900,"PG");
("AYDU",(-909206),14321277,20,"PG");
("AYGA",(-609025),14539193,5198,"PG");
("AYGN",(-1031302),15034133,66,"PG");
("AYGR",(-881045),14830432,285,"PG");
("AYHK",(-545730),15039976,66,"PG");
("AYKM",(-796000),14576889,10,"PG");
("AYKP",(-889008),14773108,1290,"PG");
("AYKV",(-257500),15080179,12,"PG");
("AYKY",(-303997),15262530,178,"PG");
("AYMD",(-521038),14578158,10,"PG");
("AYMH",(-582306),14429090,5362,"PG");
("AYMN",(-614171),14365641,5680,"PG");
("AYMO",(-205393),14742138,12,"PG");
("AYNZ",(-656887),14671517,46,"PG");
("AYPY",(-943087),14721389,146,"PG");
("AYTE",(-513428),14163267,4232,"PG");
("AYTK",(-433824),15237226,29,"PG");
("AYVN",(-268762),14129679,10,"PG");
("AYWD",(-563807),14389080,5889,"PG");
("AYWK",(-358207),14366223,19,"PG");
("BGAA",6872102,(-5279445),74,"GL");
("BGBW",6115435,(-4543692),112,"GL");
("BGCO",7073778,(-2265315),45,"IS");
("BGGH",6418897,(-5167955),283,"GL");
("BGJN",6924133,(-5106837),95,"GL");
("BGKK",6557304,(-3713664),114,"GL");
("BGMA",6543129,(-5294062),91,"GL");
("BGQQ",7749111,(-6940647),68,"CA");
("BGSF",6700561,(-5074307),165,"GL");
("BGSS",6695207,(-5373825),33,"GL");
("BGTL",7653001,(-6876151),251,"CA");
("BGUK",7278655,(-5613259),413,"GL");
("BGUQ",7073617,(-5270678),289,"GL");
("BIAE",6590386,(-2236839),20,"IS");
("BIAL",6354114,(-1845614),160,"IS");
("BIAR",6564584,(-1806994),5,"IS");
("BIBA",6355287,(-2015231),29,"IS");
("BIBD",6563754,(-2355088),25,"IS");
("BIBF",6552107,(-1381718),80,"IS");
("BIBI",6613361,(-2257564),60,"IS");
("BIBK",6601948,(-1483012),100,"IS");
("BIBL",6564121,(-2029010),130,"IS");
("BIBR",6507235,(-2180825),130,"IS");
("BIBV",6479132,(-1405223),7,"IS");
("BIDG",6474929,(-2373771),130,"IS");
("BIDV",6464578,(-1427951),8,"IS");
("BIEG",6527469,(-1441127),76,"IS");
("BIEH",6424404,(-2030671),359,"IS");
("BIFF",6493290,(-1406818),15,"IS");
("BIFL",6414184,(-2033059),269,"IS");
("BIFM",6387390,(-1665353),56,"IS");
("BIFZ",6384711,(-2071889),32,"IS");
("BIGE",6430841,(-2027556),350,"IS");
("BIGH",6384910,(-2027861),196,"IS");
("BIGJ",6599145,(-2133187),98,"IS");
("BIGR",6655041,(-1802133),65,"IS");
("BIGS",6563060,(-1615439),1275,"IS");
("BIHE",6518770,(-1620456),1500,"IS");
("BIHI",6488298,(-1948850),1994,"IS");
("BIHK",6569878,(-2169615),89,"IS");
("BIHL",6383106,(-2037911),64,"IS");
("BIHN",6430227,(-1523079),23,"IS");
("BIHR",6374925,(-2025303),100,"IS");
("BIHS",6575528,(-2347098),30,"IS");
("BIHT",6601823,(-2345364),10,"IS");
("BIHU",6594527,(-1742951),47,"IS");
("BIHV",6526910,(-2085113),164,"IS");
("BIHX",6419986,(-1928350),1197,"IS");
("BIHY",6598662,(-1839273),0,"IS");
("BIHZ",6469974,(-2090033),379,"IS");
("BIID",6605310,(-2369774),70,"IS");
("BIIS",6605513,(-2314889),7,"IS");
("BIKA",6478475,(-2226186),160,"IS");
("BIKE",6469992,(-1941699),2100,"IS");
("BIKF",6396448,(-2260545),170,"IS");
("BIKJ",6547564,(-2192815),42,"IS");
("BIKL",6379171,(-1801132),64,"IS");
("BIKP",6630721,(-1646900),20,"IS");
("BIKR",6572327,(-1956961),7,"IS");
("BIMK",6371436,(-1988933),271,"IS");
("BIMM",6548170,(-1817123),36,"IS");
("BIMN",6552235,(-2241959),147,"IS");
("BIMS",6418010,(-2171091),18,"IS");
("BIND",6471590,(-1806993),2625,"IS");
("BINF",6512974,(-1375826),6,"IS");
("BIOF",6608025,(-1867088),32,"IS");
("BIPA",6555916,(-2397908),11,"IS");
("BIRE",6545006,(-2221906),60,"IS");
("BIRF",6490908,(-2380286),18,"IS");
("BIRG",6640114,(-1593559),39,"IS");
("BIRK",6412196,(-2193620),47,"IS");
("BIRL",6565144,(-1692042),1029,"IS");
("BIRS",6591089,(-2242173),9,"IS");
("BISA",6483491,(-1605855),2200,"IS");
("BISF",6392468,(-2104456),64,"IS");
("BISG",6415860,(-1591140),30,"IS");
("BISH",6540188,(-2193614),98,"IS");
("BISI",6613376,(-1891708),9,"IS");
("BISK",6351888,(-1950396),129,"IS");
("BISL",6400357,(-1694610),284,"IS");
("BISN",6438535,(-1538513),59,"IS");
("BISP",6465206,(-1850070),2049,"IS");
("BISR",6462991,(-2149612),164,"IS");
("BISS",6406330,(-2157539),600,"IS");
("BIST",6505561,(-2277478),41,"IS");
("BISV",6411343,(-1878994),1995,"IS");
("BITE",6587241,(-2357072),26,"IS");
("BITF",6567887,(-2401548),115,"IS");
("BITH",6625018,(-1527915),7,"IS");
("BITM",6368220,(-1959001),597,"IS");
("BITN",6621306,(-1533540),63,"IS");
("BITO",6434823,(-1885471),1840,"IS");
("BIVH",6556089,(-1943766),26,"IS");
("BIVI",6342006,(-1889367),98,"IS");
("BIVM",6342561,(-2028703),326,"IS");
("BIVO",6571738,(-1485604),8,"IS");
("BKPR",4258570,2103455,1789,"XK");
("CMJN",5181813,(-12568877),1725,"CA");
("CYAG",4865800,(-9344808),1125,"US");
("CYAL",5057458,(-12690383),1,"CA");
("CYAM",4647819,(-8451333),630,"US");
("CYAU",4422704,(-6486215),321,"CA");
("CYAV",5006139,(-9703556),760,"CA");
("CYAW",4464940,(-6350571),167,"CA");
("CYAX",5029917,(-9600916),850,"CA");
("CYAY",5139093,(-5609177),108,"CA");
("CYAZ",4907623,(-12578187),80,"CA");
("CYBA",5121136,(-11553860),4583,"CA");
("CYBB",6853000,(-8982222),56,"CA");
("CYBC",4913092,(-6821957),71,"CA");
("CYBD",5238583,(-12660445),117,"CA");
("CYBE",5955995,(-10849161),1044,"CA");
("CYBF",5430416,(-11075389),1836,"CA");
("CYBG",4833278,(-7101583),522,"CA");
("CYBK",6430444,(-9608195),59,"CA");
("CYBL",4995556,(-12527834),346,"CA");
("CYBP",5063638,(-11192618),2490,"CA");
("CYBQ",5870464,(-9852285),902,"CA");
("CYBR",4990711,(-9996592),1343,"CA");
("CYBT",5789375,(-10167221),1122,"CA");
("CYBU",5332937,(-10401314),1220,"CA");
("CYBW",5111306,(-11438028),3937,"CA");
("CYBX",5143664,(-5719086),121,"CA");
("CYCA",5367967,(-5704941),40,"CA");
("CYCB",6911222,(-10515361),90,"CA");
("CYCC",4509222,(-7457000),175,"CA");
("CYCD",4905924,(-12386997),93,"CA");
("CYCE",4328306,(-8151806),824,"CA");
("CYCG",4930335,(-11763462),1624,"CA");
("CYCH",4700778,(-6546944),108,"CA");
("CYCL",4799250,(-6634333),132,"CA");
("CYCN",4910861,(-8102194),861,"CA");
("CYCO",6782056,(-11516111),74,"CA");
("CYCP",5211083,(-11929056),2240,"CA");
("CYCQ",5568535,(-12163702),2000,"CA");
("CYCS",6335024,(-9074115),16,"CA");
("CYCT",5207750,(-11145055),2595,"CA");
("CYCW",4915194,(-12194722),32,"CA");
("CYCY",7048139,(-6852111),87,"CA");
("CYCZ",5034000,(-11587583),2661,"CA");
("CYDA",6403861,(-13913945),1215,"CA");
("CYDB",6137530,(-13905182),2647,"CA");
("CYDC",4946404,(-12051828),2298,"CA");
("CYDF",4920533,(-5740033),72,"CA");
("CYDL",5841667,(-13004388),2600,"CA");
("CYDM",6197220,(-13243678),2314,"CA");
("CYDN",5110722,(-10005805),999,"CA");
("CYDO",4877899,(-7238520),372,"CA");
("CYDQ",5574111,(-12019361),2148,"CA");
("CYEA",5093124,(-11000857),2200,"CA");
("CYEE",4468778,(-7993250),770,"CA");
("CYEG",5330773,(-11359528),2373,"CA");
("CYEK",6109886,(-9407665),32,"CA");
("CYEL",4635361,(-8256972),1087,"CA");
("CYEM",4583806,(-8185944),869,"CA");
("CYEN",4920793,(-10297622),1905,"CA");
("CYER",5602321,(-8768216),42,"CA");
("CYES",4749528,(-6848778),490,"CA");
("CYET",5357902,(-11647885),3041,"CA");
("CYEU",7999631,(-8584992),256,"CA");
("CYEV",6830319,(-13350528),224,"CA");
("CYEY",4856805,(-7825777),1068,"CA");
("CYFB",6376499,(-6857471),110,"CA");
("CYFC",4586298,(-6655100),68,"CA");
("CYFD",4312389,(-8034667),815,"CA");
("CYFE",4874381,(-6910698),293,"CA");
("CYFJ",4640192,(-7478179),827,"CA");
("CYFO",5468482,(-10167983),997,"CA");
("CYFR",6118497,(-11369714),526,"CA");
("CYFS",6176778,(-12124371),555,"CA");
("CYGB",4969872,(-12452148),305,"CA");
("CYGD",4377111,(-8171639),712,"CA");
("CYGE",5130417,(-11698472),2575,"CA");
("CYGH",6624084,(-12866112),268,"CA");
("CYGK",4421833,(-7660083),305,"CA");
("CYGL",5362884,(-7771787),639,"CA");
("CYGM",5063611,(-9704945),753,"CA");
("CYGP",4877463,(-6448789),108,"CA");
("CYGQ",4977639,(-8694944),1144,"CA");
("CYGR",4742058,(-6178790),35,"CA");
("CYGS",5576781,(-12469411),2800,"CA");
("CYGT",6936991,(-8182697),98,"CA");
("CYGV",5027917,(-6362000),124,"CA");
("CYGX",5635333,(-9471967),476,"CA");
("CYGZ",7642867,(-8291582),656,"CA");
("CYHB",5281490,(-10232166),1175,"CA");
("CYHD",4983500,(-9275555),1354,"CA");
("CYHE",4936670,(-12149164),128,"CA");
("CYHF",4970889,(-8369111),827,"CA");
("CYHI",7076030,(-11782156),117,"CA");
("CYHK",6863911,(-9586369),154,"CA");
("CYHM",4318056,(-7995306),780,"CA");
("CYHN",4919056,(-8476528),1099,"CA");
("CYHR",5046544,(-5964460),39,"CA");
("CYHT",6078457,(-13755398),2150,"CA");
("CYHU",4550972,(-7342861),90,"CA");
("CYHY",6084721,(-11579614),543,"CA");
("CYHZ",4486901,(-6352461),477,"CA");
("CYIB",4877029,(-9164328),1408,"CA");
("CYID",4454189,(-6579087),499,"CA");
("CYIF",5120543,(-5865709),20,"CA");
("CYIK",6241417,(-7793333),126,"CA");
("CYIO",7267831,(-7797383),181,"CA");
("CYIV",5386007,(-9466104),776,"CA");
("CYJA",5299182,(-11805528),3350,"CA");
("CYJF",6023160,(-12347305),706,"CA");
("CYJM",5440028,(-12427055),2364,"CA");
("CYJN",4529250,(-7328943),136,"CA");
("CYJP",6132193,(-11760752),530,"CA");
("CYJQ",5213940,(-12806370),162,"CA");
("CYJT",4854028,(-5856944),80,"CA");
("CYKA",5070431,(-12045711),1133,"CA");
("CYKC",5823008,(-10368492),1341,"CA");
("CYKD",6822694,(-13501083),23,"CA");
("CYKF",4345694,(-8039056),1054,"CA");
("CYKJ",5724887,(-10562663),1670,"CA");
("CYKL",5481059,(-6681082),1709,"CA");
("CYKO",6081639,(-7815750),75,"CA");
("CYKX",4820825,(-7998998),1157,"CA");
("CYKY",5151832,(-10918826),2277,"CA");
("CYKZ",4386444,(-7937334),650,"CA");
("CYLB",5477528,(-11204222),1884,"CA");
("CYLD",4782194,(-8335694),1470,"CA");
("CYLJ",5412482,(-10853369),1576,"CA");
("CYLL",5330917,(-11008472),2193,"CA");
("CYLQ",4740278,(-7278750),548,"CA");
("CYLR",5651778,(-9998472),959,"CA");
("CYLT",8251278,(-6232333),100,"GL");
("CYLW",4996608,(-11937914),1409,"CA");
("CYMA",6361636,(-13588325),1653,"CA");
("CYMD",7623704,(-11934810),40,"CA");
("CYME",4885392,(-6746242),102,"CA");
("CYMG",4908028,(-8586556),1198,"CA");
("CYMH",5230195,(-5585111),38,"CA");
("CYMJ",5033813,(-10557548),1892,"CA");
("CYML",4760111,(-7023111),977,"CA");
("CYMM",5665250,(-11123695),1211,"CA");
("CYMO",5128810,(-8060894),30,"CA");
("CYMT",4976402,(-7453448),1270,"CA");
("CYMW",4626799,(-7599284),656,"CA");
("CYMX",4567111,(-7402167),270,"CA");
("CYMY",5071861,(-9339194),1269,"CA");
("CYNA",5019296,(-6179743),39,"CA");
("CYND",4551962,(-7557491),211,"CA");
("CYNE",5395556,(-9785138),731,"CA");
("CYNH",5603361,(-12198805),2220,"CA");
("CYNJ",4909775,(-12262761),34,"CA");
("CYNL",5828327,(-10408614),1605,"CA");
("CYNM",4976646,(-7781009),918,"CA");
("CYOC",6756611,(-13985500),824,"CA");
("CYOD",5441889,(-11030473),1775,"CA");
("CYOJ",5862750,(-11717056),1110,"CA");
("CYOO",4392444,(-7890389),459,"CA");
("CYOP",5849353,(-11941947),1759,"CA");
("CYOS",4459556,(-8083889),1007,"CA");
("CYOW",4532709,(-7568582),374,"CA");
("CYPA",5321800,(-10568481),1405,"CA");
("CYPC",6935598,(-12406391),18,"CA");
("CYPD",4565653,(-6137815),377,"CA");
("CYPE",5622333,(-11745778),1873,"CA");
("CYPG",4990667,(-9828389),885,"CA");
("CYPH",5847549,(-7806976),78,"CA");
("CYPK",4921467,(-12272246),11,"CA");
("CYPL",5144651,(-9022492),1267,"CA");
("CYPN",4983639,(-6429889),167,"CA");
("CYPQ",4422845,(-7837488),628,"CA");
("CYPR",5429334,(-13045165),116,"CA");
("CYPS",5030183,(-12274609),670,"CA");
("CYPT",4178056,(-8268417),572,"US");
("CYPU",5210960,(-12415707),2985,"CA");
("CYPW",4983472,(-12450555),425,"CA");
("CYPX",6004389,(-7728306),74,"CA");
("CYPY",5876278,(-11112750),761,"CA");
("CYPZ",5438151,(-12595951),2343,"CA");
("CYQA",4498452,(-7930882),925,"CA");
("CYQB",4678222,(-7140639),244,"CA");
("CYQD",5397694,(-10110107),887,"CA");
("CYQF",5219361,(-11389306),2968,"CA");
("CYQG",4227334,(-8297056),622,"CA");
("CYQH",6012000,(-12883472),2255,"CA");
("CYQI",4381750,(-6609750),141,"CA");
("CYQK",4978661,(-9437506),1332,"US");
("CYQL",4962361,(-11281528),3047,"CA");
("CYQM",4610665,(-6469495),232,"CA");
("CYQN",5018222,(-8670361),1057,"CA");
("CYQQ",4972074,(-12490157),83,"CA");
("CYQR",5043928,(-10467089),1894,"CA");
("CYQS",4277202,(-8111923),778,"CA");
("CYQT",4837019,(-8933365),653,"CA");
("CYQU",5518611,(-11889799),2195,"CA");
("CYQV",5126066,(-10246961),1635,"CA");
("CYQW",5277416,(-10825079),1799,"CA");
("CYQX",4892083,(-5456833),496,"CA");
("CYQY",4615374,(-6006119),203,"CA");
("CYQZ",5303257,(-12251670),1789,"CA");
("CYRA",6411922,(-11731680),757,"CA");
("CYRB",7472554,(-9497709),215,"CA");
("CYRC",4851944,(-7106222),543,"CA");
("CYRI",4775750,(-6959167),427,"CA");
("CYRJ",4852556,(-7227194),586,"CA");
("CYRL",5106583,(-9380389),1265,"CA");
("CYRM",5243597,(-11491105),3244,"CA");
("CYRO",4545917,(-7565222),188,"CA");
("CYRP",4531861,(-7602972),382,"CA");
("CYRQ",4634572,(-7268564),199,"CA");
("CYRT",6281655,(-9212977),94,"CA");
("CYRV",5097152,(-11819036),1459,"CA");
("CYSA",4341087,(-8093994),1215,"CA");
("CYSB",4661750,(-8080473),1141,"CA");
("CYSC",4544246,(-7170161),792,"CA");
("CYSE",4977881,(-12315886),171,"CA");
("CYSF",5925236,(-10582838),805,"CA");
("CYSG",4609151,(-7072188),893,"CA");
("CYSH",4494219,(-7594614),416,"CA");
("CYSJ",4530253,(-6589484),357,"CA");
("CYSL",4716233,(-6783954),793,"CA");
("CYSM",6002750,(-11197250),671,"CA");
("CYSN",4318792,(-7917860),321,"CA");
("CYSP",4876000,(-8634806),1035,"CA");
("CYSQ",5958807,(-13366169),2348,"US");
("CYSR",7298358,(-8464267),2106,"CA");
("CYST",5384198,(-9485718),773,"CA");
("CYSU",4643139,(-6384278),56,"CA");
("CYSW",4983879,(-11488259),3800,"CA");
("CYSY",7199333,(-12526000),282,"CA");
("CYSZ",4912278,(-6653639),0,"CA");
("CYTA",4587083,(-7725555),529,"CA");
("CYTB",6168476,(-11061608),1540,"CA");
("CYTE",6423354,(-7653482),164,"CA");
("CYTF",4851111,(-7165000),445,"CA");
("CYTH",5579641,(-9787474),729,"CA");
("CYTN",4560708,(-6262813),319,"CA");
("CYTR",4410889,(-7754222),283,"CA");
("CYTS",4856306,(-8137889),967,"CA");
("CYTZ",4362747,(-7940336),251,"CA");
("CYUB",6943722,(-13304250),15,"CA");
("CYUL",4546111,(-7376583),117,"CA");
("CYUT",6652578,(-8622852),80,"CA");
("CYUX",6877989,(-8125968),27,"CA");
("CYUY",4820105,(-7884886),988,"CA");
("CYVB",4807454,(-6547132),123,"CA");
("CYVC",5515814,(-10526011),1242,"CA");
("CYVG",5335806,(-11082972),2025,"CA");
("CYVK",5024653,(-11933733),1140,"CA");
("CYVM",6754195,(-6403806),21,"CA");
("CYVO",4806675,(-7778652),1107,"CA");
("CYVP",5808445,(-6843806),129,"CA");
("CYVQ",6528556,(-12681539),238,"CA");
("CYVR",4919011,(-12320795),14,"CA");
("CYVT",5584623,(-10842357),1444,"CA");
("CYVV",4473917,(-8111723),729,"CA");
("CYWA",4595639,(-7732306),427,"CA");
("CYWG",4992528,(-9723417),783,"CA");
("CYWJ",6521216,(-12345091),695,"CA");
("CYWK",5291500,(-6686017),1808,"CA");
("CYWL",5218917,(-12206445),3085,"CA");
("CYWM",5474861,(-11320361),1971,"CA");
("CYWO",6574698,(-11125517),1608,"CA");
("CYWV",5279889,(-11086195),2230,"CA");
("CYWY",6321261,(-12344463),489,"CA");
("CYXC",4962308,(-11578230),3084,"CA");
("CYXD",5357778,(-11352833),2200,"CA");
("CYXE",5217852,(-10671809),1653,"CA");
("CYXH",5001403,(-11072807),2352,"CA");
("CYXJ",5624500,(-12075333),2280,"CA");
("CYXK",4847389,(-6850389),82,"CA");
("CYXL",5012057,(-9191073),1258,"CA");
("CYXN",6224525,(-9260412),26,"CA");
("CYXP",6614300,(-6572178),73,"CA");
("CYXQ",6241107,(-14087062),2129,"CA");
("CYXR",4769392,(-7985796),798,"CA");
("CYXS",5390028,(-12267056),2267,"CA");
("CYXT",5447871,(-12859042),712,"CA");
("CYXU",4304211,(-8115980),912,"CA");
("CYXX",4901911,(-12237997),189,"CA");
("CYXY",6072167,(-13507667),2317,"CA");
("CYXZ",4796111,(-8479028),942,"CA");
("CYYB",4635732,(-7944228),1215,"CA");
("CYYC",5113151,(-11402208),3557,"CA");
("CYYD",5483157,(-12718444),1712,"CA");
("CYYE",5883083,(-12261584),1253,"CA");
("CYYF",4946944,(-11960083),1129,"CA");
("CYYG",4628003,(-6312752),160,"CA");
("CYYH",6955095,(-9358352),92,"CA");
("CYYJ",4865104,(-12343972),63,"CA");
("CYYL",5687056,(-10107000),1170,"CA");
("CYYM",4963886,(-11409722),3876,"CA");
("CYYN",5029668,(-10769524),2680,"CA");
("CYYO",5180972,(-10417555),1740,"CA");
("CYYQ",5874566,(-9407771),94,"CA");
("CYYR",5330389,(-6044806),160,"CA");
("CYYT",4762554,(-5275346),461,"CA");
("CYYU",4942083,(-8247222),743,"CA");
("CYYW",5029914,(-8892497),1058,"CA");
("CYYY",4860361,(-6821639),172,"CA");
("CYYZ",4366073,(-7962394),568,"CA");
("CYZD",4374972,(-7947417),652,"CA");
("CYZE",4588611,(-8257722),635,"CA");
("CYZF",6247317,(-11444400),675,"CA");
("CYZG",6218453,(-7566590),705,"CA");
("CYZH",5529648,(-11479041),1912,"CA");
("CYZP",5326002,(-13182058),20,"CA");
("CYZR",4300444,(-8231528),594,"CA");
("CYZS",6419953,(-8336607),210,"CA");
("CYZT",5068611,(-12737306),71,"CA");
("CYZU",5414844,(-11579775),2567,"CA");
("CYZV",5021722,(-6627917),180,"CA");
("CYZW",6017469,(-13275596),2313,"CA");
("CYZX",4498359,(-6493172),85,"CA");
("CYZY",5531111,(-12313084),2264,"CA");
("CZAA",5547816,(-12948496),0,"CA");
("CZAC",5609078,(-9609832),623,"CA");
("CZAM",5068819,(-11923206),1751,"CA");
("CZBA",4344500,(-7985472),602,"CA");
("CZBB",4907820,(-12301930),5,"CA");
("CZBD",5605152,(-9563162),646,"CA");
("CZBF",4762878,(-6574801),193,"CA");
("CZBM",4528548,(-7274788),375,"CA");
("CZEE",5603954,(-9651451),620,"CA");
("CZFA",6220972,(-13338667),2351,"CA");
("CZFD",5933570,(-10719266),814,"CA");
("CZFM",6741139,(-13486806),116,"CA");
("CZFN",6490911,(-12558225),332,"CA");
("CZGF",4901528,(-11843916),1720,"CA");
("CZHP",5539348,(-11648473),1974,"CA");
("CZJN",5211581,(-10124035),1100,"CA");
("CZML",5174302,(-12133694),3127,"CA");
("CZMT",5403042,(-13212440),25,"US");
("CZNL",4949194,(-11730611),1755,"CA");
("CZPC",4952056,(-11401111),3903,"CA");
("CZPO",5553207,(-10658331),1270,"CA");
("CZSN",5679826,(-9890596),918,"CA");
("CZST",5594056,(-12998167),24,"CA");
("CZTM",5586930,(-9208000),272,"CA");
("CZUC",4942517,(-9172630),1435,"CA");
("CZUM",5356452,(-6411818),1442,"CA");
("CZVL",5366550,(-11384772),2255,"CA");
("CZWH",5861900,(-10146286),1210,"CA");
("CZWL",5811213,(-10317326),1360,"CA");
("DAAB",3650139,280331,535,"DZ");
("DAAD",3532508,419843,1506,"DZ");
("DAAE",3671000,505667,20,"DZ");
("DAAG",3669392,322017,82,"DZ");
("DAAJ",2429306,945194,3176,"LY");
("DAAK",3653381,286256,335,"DZ");
("DAAN",2670642,27375,955,"DZ");
("DAAP",2672364,860746,1778,"DZ");
("DAAQ",3552691,286080,2132,"DZ");
("DAAS",3617790,531377,3360,"DZ");
("DAAT",2279639,544439,4518,"DZ")].
(** openap/data/nav/airports.csv:502-1001 *)
Definition apts01 : list apt := [
("DAAV",3680583,587150,36,"DZ");
("DAAY",3352391,(-25989),3855,"DZ");
("DAAZ",3574994,61967,282,"DZ");
("DABB",3681831,780870,16,"DZ");
("DABC",3628806,661056,2265,"DZ");
("DABS",3543846,810682,2661,"DZ");
("DABT",3574434,629502,2697,"DZ");
("DAFH",3292789,329580,2540,"DZ");
("DAOB",3533909,144686,3245,"DZ");
("DAOE",3573136,(-81942),187,"DZ");
("DAOF",2769839,(-818221),1453,"DZ");
("DAOI",3620969,132337,463,"DZ");
("DAOL",3553938,(-54696),367,"DZ");
("DAON",3500935,(-147059),814,"DZ");
("DAOO",3561852,(-63672),295,"DZ");
("DAOR",3163770,(-229554),2661,"DZ");
("DAOS",3517267,(-60135),1614,"DZ");
("DAOV",3520639,13796,1686,"DZ");
("DAUA",2782722,(-19611),919,"DZ");
("DAUB",3480165,572615,289,"DZ");
("DAUE",3059944,286139,1306,"DZ");
("DAUG",3238392,379447,1512,"DZ");
("DAUH",3168650,614163,463,"DZ");
("DAUI",2724251,250028,896,"DZ");
("DAUK",3306000,608722,279,"DZ");
("DAUL",3378053,292136,2510,"DZ");
("DAUO",3352750,676194,203,"DZ");
("DAUT",2922917,26306,1027,"DZ");
("DAUU",3193013,541646,492,"DZ");
("DAUZ",2804507,963511,1847,"DZ");
("DBBB",635071,237568,19,"BJ");
("DBBP",935111,260474,1266,"BJ");
("DFCC",1356222,(-243097),1105,"BF");
("DFFD",1234168,(-152025),1037,"BF");
("DFOO",1115112,(-434291),1511,"BF");
("DGAA",558838,(-17337),204,"GH");
("DGLE",956643,(-85421),553,"GH");
("DGLN",1094798,(-109235),680,"GH");
("DGLW",1009103,(-250474),1060,"GH");
("DGLY",942926,(-94),736,"GH");
("DGSI",670379,(-159306),942,"GH");
("DGSN",735948,(-233393),1014,"GH");
("DGTK",488912,(-177866),20,"GH");
("DIAP",524885,(-393145),21,"CI");
("DIBK",772520,(-507980),1230,"CI");
("DIDL",678481,(-647743),823,"CI");
("DIKO",938553,(-556608),1214,"CI");
("DIMN",726366,(-759121),1089,"CI");
("DISP",473864,(-666370),26,"CI");
("DIYO",689302,(-537475),699,"CI");
("DNAA",899344,725374,1123,"NG");
("DNAK",723523,529579,1100,"NG");
("DNBE",630901,559124,258,"NG");
("DNCA",496617,834229,210,"NG");
("DNEN",647219,755091,466,"NG");
("DNGU",1216714,669121,1520,"NG");
("DNIB",735413,397133,725,"NG");
("DNIL",843097,448331,1126,"NG");
("DNIM",543906,720330,373,"NG");
("DNJO",964106,885547,4232,"NG");
("DNKA",1068710,730968,2073,"NG");
("DNKN",1204162,850665,1562,"NG");
("DNMA",1184594,1307126,1099,"NG");
("DNMK",769554,860330,371,"NG");
("DNMM",658778,331356,135,"NG");
("DNMN",964154,645134,834,"NG");
("DNPO",500350,694313,87,"NG");
("DNSO",1291277,519344,1010,"NG");
("DNYO",927105,1242819,599,"NG");
("DNZA",1112535,767991,2170,"NG");
("DRRM",1350165,711824,1240,"NE");
("DRRN",1348090,216974,732,"NE");
("DRRT",1487077,525679,1266,"NE");
("DRZA",1696092,798706,1657,"NE");
("DRZD",1896326,1286359,1273,"NE");
("DRZF",1337269,1261838,994,"NE");
("DRZR",1377405,897698,1516,"NE");
("DTKA",3698085,885906,230,"TN");
("DTMB",3575411,1073844,9,"TN");
("DTNH",3607581,1042029,21,"TN");
("DTTA",3683913,1022376,22,"TN");
("DTTB",3724033,976985,20,"TN");
("DTTD",3229625,1037721,1004,"TN");
("DTTF",3441345,881067,1060,"TN");
("DTTG",3387444,1009801,26,"TN");
("DTTI",3672415,993842,108,"TN");
("DTTJ",3387503,1076034,18,"TN");
("DTTR",3170891,924145,827,"TN");
("DTTX",3472904,1068213,85,"TN");
("DTTZ",3393963,808368,287,"TN");
("DXNG",975598,108640,1515,"TG");
("DXXX",615513,124569,72,"TG");
("EBAM",5074049,348172,49,"BE");
("EBAV",5070646,506814,393,"BE");
("EBAW",5119238,445276,39,"BE");
("EBBE",5074895,475583,341,"BE");
("EBBL",5115961,545307,200,"BE");
("EBBR",5089887,445564,184,"BE");
("EBBT",5134496,450165,76,"BE");
("EBBX",4988161,521461,1514,"BE");
("EBBY",5056671,443470,541,"BE");
("EBBZ",5054417,438088,475,"BE");
("EBCF",5015505,438202,954,"BE");
("EBCI",5045520,443672,614,"BE");
("EBCV",5057432,381772,201,"BE");
("EBFN",5109398,263479,20,"BE");
("EBFS",5024084,462546,900,"BE");
("EBGB",5094588,439098,68,"BE");
("EBGG",5075279,386278,66,"BE");
("EBHN",5130850,438481,32,"BE");
("EBKH",5117920,521332,131,"BE");
("EBKT",5081477,319707,64,"BE");
("EBLE",5111676,529687,207,"BE");
("EBLG",5062708,542795,645,"BE");
("EBLN",5057905,478999,560,"BE");
("EBMO",5085110,314369,66,"BE");
("EBNM",5048797,476555,594,"BE");
("EBOS",5119657,285266,13,"BE");
("EBOT",5131490,501330,75,"BE");
("EBSF",5099843,505567,100,"BE");
("EBSG",5045783,381602,75,"BE");
("EBSH",5004025,540201,1847,"BE");
("EBSL",5094073,557226,312,"BE");
("EBSP",5048019,590594,1542,"BE");
("EBSU",5003025,542454,1930,"BE");
("EBTN",5076846,495681,247,"BE");
("EBTX",5055107,585108,1099,"BE");
("EBTY",5053245,349181,161,"FR");
("EBUL",5113986,345839,95,"BE");
("EBWE",5138984,494032,105,"BE");
("EBZH",5097004,537015,141,"BE");
("EBZR",5125602,473786,173,"BE");
("EBZW",5101058,551903,289,"BE");
("EDAB",5119064,1450465,549,"DE");
("EDAC",5097437,1249622,640,"DE");
("EDAD",5183191,1217676,187,"DE");
("EDAE",5219947,1457785,149,"DE");
("EDAH",5388163,1413450,93,"DE");
("EDAI",5282309,1254653,142,"DE");
("EDAJ",5087918,1213252,1015,"DE");
("EDAK",5131258,1353969,417,"DE");
("EDAL",5239263,1409077,184,"DE");
("EDAM",5136216,1193276,340,"DE");
("EDAN",5336197,1160418,115,"DE");
("EDAP",5168477,1441605,279,"DE");
("EDAQ",5155440,1204662,347,"DE");
("EDAR",5098156,1390272,400,"DE");
("EDAS",5163533,1366751,384,"DE");
("EDAU",5129795,1334195,321,"DE");
("EDAV",5282912,1367509,121,"DE");
("EDAW",5157784,1248584,289,"DE");
("EDAX",5330364,1273585,220,"DE");
("EDAY",5257645,1390898,263,"DE");
("EDAZ",5220170,1314965,131,"DE");
("EDBC",5185348,1140029,596,"DE");
("EDBD",5335689,1377695,164,"DE");
("EDBF",5279329,1276111,138,"DE");
("EDBH",5433817,1270088,23,"DE");
("EDBJ",5091008,1171152,1228,"DE");
("EDBK",5292231,1242062,130,"DE");
("EDBL",5124624,1168838,737,"DE");
("EDBM",5207352,1161920,267,"DE");
("EDBO",5189913,1305163,287,"DE");
("EDBP",5361239,1156163,144,"DE");
("EDBQ",5166705,1395170,423,"DE");
("EDBR",5137440,1494979,517,"DE");
("EDBS",5119768,1118593,451,"DE");
("EDBT",5137685,1142902,932,"DE");
("EDBU",5317515,1218091,289,"DE");
("EDBV",5433320,1303797,49,"DE");
("EDBW",5263133,1376453,263,"DE");
("EDBY",5397649,1334021,105,"DE");
("EDBZ",5149172,1387494,331,"DE");
("EDCA",5383317,1366158,18,"DE");
("EDCB",5174316,1122376,533,"DE");
("EDCD",5188546,1451516,274,"DE");
("EDCE",5247381,1406811,220,"DE");
("EDCG",5438360,1331862,0,"DE");
("EDCJ",5074581,1283142,1202,"DE");
("EDCK",5172126,1194177,304,"DE");
("EDCM",5129211,1412479,495,"DE");
("EDCN",5262818,1290709,110,"DE");
("EDCO",5126986,1062505,909,"DE");
("EDCP",5416573,1376016,7,"DE");
("EDCQ",5176838,1149101,524,"DE");
("EDCS",5230945,1309454,160,"DE");
("EDCT",5139375,1253297,492,"DE");
("EDCW",5391257,1149475,27,"DE");
("EDCX",5416082,1224336,0,"DE");
("EDCY",5157156,1413062,375,"DE");
("EDDB",5236769,1348503,157,"DE");
("EDDC",5112466,1375474,752,"DE");
("EDDE",5098148,1093975,1035,"DE");
("EDDF",5003262,853463,355,"DE");
("EDDG",5213131,766926,159,"DE");
("EDDH",5361823,996371,53,"DE");
("EDDK",5088047,712908,302,"DE");
("EDDL",5127961,675199,146,"DE");
("EDDM",4836276,1176755,1487,"DE");
("EDDN",4950055,1105918,1045,"DE");
("EDDP",5143124,1221583,464,"DE");
("EDDR",4921417,709643,1057,"DE");
("EDDS",4868574,920012,1273,"DE");
("EDDT",5255764,1326576,122,"DE");
("EDDV",5245482,967702,183,"DE");
("EDDW",5304644,877006,14,"DE");
("EDEN",5084140,970670,932,"DE");
("EDER",5049752,994953,2999,"DE");
("EDFA",5028637,852928,1067,"DE");
("EDFB",5034465,887852,395,"DE");
("EDFC",4993814,905671,410,"DE");
("EDFD",5030749,1011974,997,"DE");
("EDFE",4996037,863110,387,"DE");
("EDFG",5019582,916113,423,"DE");
("EDFH",4993139,724688,1649,"DE");
("EDFL",5054336,858670,754,"DE");
("EDFM",4947299,850610,309,"DE");
("EDFN",5087146,881047,833,"DE");
("EDFO",4967767,896920,1143,"DE");
("EDFP",5035973,870681,828,"DE");
("EDFQ",5103761,867270,1164,"DE");
("EDFR",4938749,1021573,1309,"DE");
("EDFT",5068212,940580,1210,"DE");
("EDFU",4969378,917928,1501,"DE");
("EDFV",4960523,836176,295,"DE");
("EDFW",4981899,989296,986,"DE");
("EDFZ",4996773,814173,760,"DE");
("EDGB",5067832,816663,1833,"DE");
("EDGE",5099417,1046444,1101,"DE");
("EDGF",5047497,943813,1558,"DE");
("EDGI",4932037,965300,1375,"DE");
("EDGM",4940357,911974,1083,"DE");
("EDGP",4983829,837197,279,"DE");
("EDGS",5071276,807268,1966,"DE");
("EDHB",5424443,1101990,6,"DE");
("EDHC",5301911,1114314,50,"DE");
("EDHE",5364689,969486,22,"DE");
("EDHF",5399249,957679,52,"DE");
("EDHG",5324704,1045162,161,"DE");
("EDHI",5352856,982149,21,"DE");
("EDHK",5437871,1013553,101,"DE");
("EDHL",5380205,1070189,53,"DE");
("EDHM",5391362,1003748,108,"DE");
("EDHN",5407809,993604,72,"DE");
("EDHO",5370057,973984,33,"DE");
("EDHP",5453728,867568,10,"DE");
("EDHS",5356040,949332,62,"DE");
("EDHU",5320875,956913,98,"DE");
("EDHW",5397091,1021599,128,"DE");
("EDJA",4798165,1022257,2077,"DE");
("EDKA",5082263,618278,623,"DE");
("EDKB",5077012,715749,197,"DE");
("EDKL",5101867,700318,154,"DE");
("EDKM",5129956,823543,1425,"DE");
("EDKO",5140428,864495,460,"DE");
("EDKV",5040339,652167,1896,"DE");
("EDKZ",5109880,759517,1548,"DE");
("EDLA",5148095,789292,794,"DE");
("EDLB",5177811,728205,158,"DE");
("EDLD",5161662,685833,217,"DE");
("EDLE",5140012,692908,424,"DE");
("EDLH",5168906,781464,190,"DE");
("EDLI",5196682,853628,454,"DE");
("EDLK",5138476,658648,125,"DE");
("EDLM",5164745,715872,241,"DE");
("EDLN",5123372,649779,125,"DE");
("EDLO",5193115,867231,170,"DE");
("EDLP",5160888,860309,699,"DE");
("EDLS",5199717,683359,157,"DE");
("EDLT",5194488,776883,177,"DE");
("EDLV",5160284,612454,106,"NL");
("EDLW",5151469,760190,425,"DE");
("EDLZ",5158798,821176,394,"DE");
("EDMA",4842339,1092355,1515,"DE");
("EDMB",4810705,975774,1903,"DE");
("EDME",4839574,1271377,1342,"DE");
("EDMJ",4817378,1112273,1860,"DE");
("EDMK",4769127,1033281,2340,"DE");
("EDML",4850945,1202702,1501,"DE");
("EDMN",4811349,1052099,1857,"DE");
("EDMO",4807404,1127306,1947,"DE");
("EDMS",4890156,1250683,1054,"DE");
("EDMT",4800997,1009317,1898,"DE");
("EDMV",4863786,1318911,991,"DE");
("EDMW",4883016,1287546,1029,"DE");
("EDNB",4912702,1298430,1716,"DE");
("EDNE",4833842,991302,1558,"DE");
("EDNF",4882566,1336842,1417,"DE");
("EDNG",4863761,1021485,1695,"DE");
("EDNL",4785652,1000892,2099,"DE");
("EDNM",4922005,1229571,1161,"DE");
("EDNO",4887102,1050312,1378,"DE");
("EDNV",4794483,1220179,1535,"DE");
("EDNY",4766830,949928,1367,"DE");
("EDOC",5252823,1134858,230,"DE");
("EDOD",5190305,1318741,335,"DE");
("EDOE",5121366,1236350,429,"DE");
("EDOF",5137234,1113862,767,"DE");
("EDOG",5157054,1304646,269,"DE");
("EDOI",5266224,1274238,102,"DE");
("EDOL",5204126,1119871,340,"DE");
("EDOM",5194767,1176655,170,"DE");
("EDON",5261150,1422513,35,"DE");
("EDOP",5342132,1176301,166,"DE");
("EDOQ",5129541,1307301,501,"DE");
("EDOV",5262781,1180535,184,"DE");
("EDOX",5159292,1222985,308,"DE");
("EDOZ",5199510,1178667,166,"DE");
("EDPA",4877724,1025833,1916,"DE");
("EDPJ",4849602,963763,2434,"DE");
("EDPQ",4943196,1209518,1247,"DE");
("EDPS",4867947,1369321,2673,"DE");
("EDPU",4875052,1000310,2092,"DE");
("EDQC",5026505,1099037,1485,"DE");
("EDQD",4998248,1163391,1601,"DE");
("EDQE",4979342,1112564,1674,"DE");
("EDQH",4958179,1087279,1069,"DE");
("EDQK",5013489,1145357,1660,"DE");
("EDQM",5028827,1184370,1960,"DE");
("EDQN",4958802,1057352,1198,"DE");
("EDQP",4986323,1178245,1496,"DE");
("EDQT",5002004,1052239,718,"DE");
("EDQW",4968088,1211411,1330,"DE");
("EDRA",5055908,713325,672,"DE");
("EDRB",4993706,654677,1223,"DE");
("EDRF",4947239,819229,351,"DE");
("EDRH",4960931,718150,1093,"DE");
("EDRJ",4931150,666869,1120,"DE");
("EDRK",5032242,752083,640,"DE");
("EDRP",4926306,748686,1247,"DE");
("EDRT",4986014,678208,665,"DE");
("EDRW",5056666,756084,951,"DE");
("EDRY",4930811,844903,312,"DE");
("EDSB",4876783,806994,408,"DE");
("EDSH",4892045,945204,963,"DE");
("EDSL",4784234,855845,2300,"DE");
("EDSN",4797689,889681,2648,"DE");
("EDSP",4854523,894613,1315,"DE");
("EDSZ",4818614,871782,2444,"DE");
("EDTD",4797986,852196,2231,"DE");
("EDTF",4802789,782969,799,"DE");
("EDTG",4789840,760809,695,"DE");
("EDTH",4880128,992263,1423,"DE");
("EDTK",4897600,832785,380,"DE");
("EDTL",4835737,781813,511,"DE");
("EDTM",4805241,936231,1820,"DE");
("EDTO",4844397,792157,509,"DE");
("EDTQ",4886489,922024,914,"DE");
("EDTS",4806366,856832,2169,"DE");
("EDTU",4803062,950477,1907,"DE");
("EDTW",4828208,842627,2202,"DE");
("EDTY",4911941,977321,1311,"DE");
("EDUB",5243647,1244767,103,"DE");
("EDUF",5154700,1322052,284,"DE");
("EDUO",5154536,1159170,738,"DE");
("EDUS",5160741,1372934,399,"DE");
("EDUT",5302883,1350880,202,"DE");
("EDUW",5393198,1321611,23,"DE");
("EDVA",5185175,1002537,525,"DE");
("EDVC",5268648,1010329,207,"DE");
("EDVE",5231842,1054210,295,"DE");
("EDVH",5276194,960853,79,"DE");
("EDVI",5180605,938396,561,"DE");
("EDVK",5140226,936908,908,"DE");
("EDVM",5217814,993715,293,"DE");
("EDVN",5170551,1004411,530,"DE");
("EDVP",5239862,1024377,265,"DE");
("EDVR",5217636,904952,220,"DE");
("EDVS",5215314,1042215,328,"DE");
("EDVU",5298292,1046086,246,"DE");
("EDVW",5196803,929034,1177,"DE");
("EDVY",5222272,885822,160,"DE");
("EDWA",5462531,892726,3,"DE");
("EDWB",5351225,857031,10,"DE");
("EDWC",5248837,817991,151,"DE");
("EDWE",5338939,721728,2,"DE");
("EDWF",5327058,743351,3,"DE");
("EDWG",5378365,791639,6,"DE");
("EDWH",5306691,830750,26,"DE");
("EDWI",5349772,804829,16,"DE");
("EDWJ",5368147,705345,8,"DE");
("EDWK",5333554,902415,20,"DE");
("EDWL",5374107,749450,7,"DE");
("EDWM",5305748,920836,59,"DE");
("EDWN",5245540,717949,87,"DE");
("EDWO",5228533,797278,287,"DE");
("EDWQ",5303691,849994,96,"DE");
("EDWR",5359499,670982,3,"DE");
("EDWS",5363776,718839,3,"DE");
("EDWU",5290823,803563,128,"DE");
("EDWV",5296814,928236,144,"DE");
("EDWX",5328761,792678,30,"DE");
("EDWY",5370661,722103,6,"DE");
("EDWZ",5372540,736949,6,"DE");
("EDXA",5237704,791153,177,"DE");
("EDXB",5415433,889640,7,"DE");
("EDXC",5442527,953592,54,"DE");
("EDXD",5235155,832656,148,"DE");
("EDXE",5227704,748486,131,"DE");
("EDXF",5477344,936981,130,"DE");
("EDXG",5220089,837214,236,"DE");
("EDXH",5418574,791331,7,"DE");
("EDXI",5270933,915621,82,"DE");
("EDXJ",5450457,913196,62,"DE");
("EDXK",5479263,895706,24,"DE");
("EDXL",5316603,778975,10,"DE");
("EDXM",5397757,913813,124,"DE");
("EDXN",5376664,863794,72,"DE");
("EDXO",5430802,868192,5,"DE");
("EDXP",5370672,781753,7,"DE");
("EDXQ",5312569,934261,97,"DE");
("EDXR",5421738,959662,23,"DE");
("EDXS",5333436,925696,72,"DE");
("EDXT",5406886,1074404,80,"DE");
("EDXU",5328631,894626,10,"DE");
("EDXW",5491935,833288,51,"DE");
("EDXY",5468426,853107,25,"DE");
("EDXZ",5356944,878545,26,"DE");
("EEEI",5925732,2419192,65,"EE");
("EEKA",5899654,2282374,18,"EE");
("EEKE",5823670,2250940,14,"EE");
("EEPU",5840971,2446055,47,"EE");
("EETN",5941332,2480581,131,"EE");
("EETU",5830729,2667867,219,"EE");
("EFAA",6760586,2396973,738,"FI");
("EFAH",6489680,2574845,95,"FI");
("EFAL",6255381,2356969,407,"FI");
("EFET",6835521,2341050,1005,"FI");
("EFEU",6111806,2219303,259,"FI");
("EFFO",6079915,2364452,325,"FI");
("EFGE",6008613,2251745,46,"FI");
("EFHA",6185526,2476196,479,"FI");
("EFHF",6026054,2504414,57,"FI");
("EFHI",6225906,2433557,531,"FI");
("EFHK",6031129,2493637,179,"FI");
("EFHL",6496562,2470388,7,"FI");
("EFHM",6168852,2306544,449,"FI");
("EFHN",5984226,2307801,20,"FI");
("EFHP",6411453,2550093,315,"FI");
("EFHV",6065148,2487505,430,"FI");
("EFII",6363462,2712444,384,"FI");
("EFIK",6046735,2365201,381,"FI");
("EFIM",6124986,2888969,338,"FI");
("EFIT",6215976,3006886,364,"FI");
("EFIV",6859963,2738289,481,"FI");
("EFJM",6177830,2271151,505,"FI");
("EFJO",6266459,2959766,398,"FI");
("EFJP",6871174,2575270,1575,"NO");
("EFJY",6240755,2566014,459,"FI");
("EFKA",6313917,2305000,151,"FI");
("EFKE",6579302,2458601,61,"FI");
("EFKG",6024924,2080538,7,"AX");
("EFKH",6411381,2943432,571,"FI");
("EFKI",6428345,2766704,483,"FI");
("EFKJ",6246172,2238097,407,"FI");
("EFKK",6370785,2313816,83,"FI");
("EFKM",6671931,2715516,692,"FI");
("EFKO",6422569,2381601,43,"FI");
("EFKR",6398890,2574002,348,"FI");
("EFKS",6599481,2921974,866,"FI");
("EFKT",6771190,2483976,644,"FI");
("EFKU",6301808,2778764,323,"FI");
("EFKV",6312680,2508751,502,"FI");
("EFKY",6057693,2689488,230,"FI");
("EFLA",6114218,2568350,502,"FI");
("EFLL",6339776,2748103,328,"FI");
("EFLN",6351402,2962094,374,"FI");
("EFLP",6104012,2812314,349,"FI");
("EFMA",6011436,1989137,17,"AX");
("EFME",6294296,2351032,331,"FI");
("EFMI",6168968,2718685,329,"FI");
("EFMM",6202761,2465818,350,"FI");
("EFMN",6057082,2550955,135,"FI");
("EFMP",6866122,2570568,1526,"NO");
("EFNU",6032636,2428233,367,"FI");
("EFOP",6087934,2274252,331,"FI");
("EFOU",6493584,2533189,47,"FI");
("EFPH",6246723,3003830,318,"FI");
("EFPI",6125058,2219183,148,"FI");
("EFPK",6225592,2700334,390,"FI");
("EFPN",6173092,2939491,253,"FI");
("EFPO",6146811,2178134,44,"FI");
("EFPU",6540222,2694694,397,"FI");
("EFPY",6373192,2592631,528,"FI");
("EFRA",6342948,2812750,476,"FI");
("EFRH",6468940,2468584,118,"FI");
("EFRN",6206966,2835806,292,"FI");
("EFRO",6655410,2580999,632,"FI");
("EFRU",6597562,2636478,541,"FI");
("EFRV",6370857,2661574,515,"FI");
("EFRY",6074692,2410901,407,"FI");
("EFSA",6194908,2892734,311,"FI");
("EFSE",6106699,2678889,417,"FI");
("EFSI",6269711,2282189,301,"FI");
("EFSJ",6382075,2776410,603,"FI");
("EFSO",6740154,2661471,602,"FI");
("EFSU",6481909,2870742,541,"FI");
("EFTO",6007890,2417206,15,"FI");
("EFTP",6140892,2358159,390,"FI");
("EFTS",6177006,2401801,515,"FI")].
(** openap/data/nav/airports.csv:1002-1501 *)
Definition apts02 : list apt := [
("EFTU",6051311,2224015,161,"FI");
("EFUT",6089453,2692033,339,"FI");
("EFVA",6306206,2175449,19,"FI");
("EFVI",6312342,2581841,361,"FI");
("EFVL",6450170,2675524,455,"FI");
("EFVR",6218035,2785410,286,"FI");
("EFVT",6339548,2402542,415,"FI");
("EFVU",6808940,2712810,853,"FI");
("EFWB",6066253,2674459,82,"FI");
("EFYL",6406055,2471595,252,"FI");
("EGAA",5465226,(-623524),268,"GB");
("EGAB",5440333,(-765833),155,"GB");
("EGAC",5461136,(-588072),15,"GB");
("EGAD",5457681,(-569641),9,"GB");
("EGAE",5504040,(-717505),22,"GB");
("EGAL",5461543,(-631075),82,"GB");
("EGBB",5246558,(-176107),327,"GB");
("EGBD",5286233,(-161829),175,"GB");
("EGBE",5236489,(-148840),267,"GB");
("EGBF",5223188,(-45255),154,"GB");
("EGBG",5260776,(-103403),469,"GB");
("EGBJ",5189342,(-217734),101,"GB");
("EGBK",5230100,(-79619),429,"GB");
("EGBL",5213592,(-175939),157,"GB");
("EGBM",5281257,(-177315),450,"GB");
("EGBN",5292061,(-108578),138,"GB");
("EGBO",5252206,(-226298),283,"GB");
("EGBP",5166658,(-207108),433,"GB");
("EGBS",5224107,(-288871),318,"GB");
("EGBT",5204071,(-110125),448,"GB");
("EGBW",5219630,(-161485),159,"GB");
("EGCB",5347122,(-239441),73,"GB");
("EGCC",5334514,(-229277),257,"GB");
("EGCD",5333388,(-216494),295,"GB");
("EGCF",5355686,(-86312),11,"GB");
("EGCG",5331014,16699,45,"GB");
("EGCJ",5378509,(-122380),26,"GB");
("EGCK",5309956,(-434217),13,"GB");
("EGCL",5274229,(-2979),8,"GB");
("EGCN",5346293,(-101073),55,"GB");
("EGCO",5364067,(-302955),6,"GB");
("EGCP",5362464,(-92836),3,"GB");
("EGCR",5316603,(-257654),150,"GB");
("EGCS",5338095,(-69145),58,"GB");
("EGCT",5293418,(-264967),301,"GB");
("EGCV",5283151,(-277569),275,"GB");
("EGCW",5262487,(-315760),233,"GB");
("EGDA",5187041,(-512604),355,"GB");
("EGDC",5108717,(-416340),26,"GB");
("EGDD",5192060,(-113392),266,"GB");
("EGDJ",5128401,(-178676),544,"GB");
("EGDL",5150218,(-201096),513,"GB");
("EGDM",5114414,(-176855),407,"GB");
("EGDN",5124978,(-176293),455,"GB");
("EGDO",4999619,(-524072),295,"GB");
("EGDR",5008859,(-526585),267,"GB");
("EGDV",5152583,(-214303),328,"GB");
("EGDW",5096237,(-295208),145,"GB");
("EGDX",5140281,(-344600),163,"GB");
("EGDY",5100703,(-266172),75,"GB");
("EGEC",5544111,(-570940),44,"GB");
("EGED",5918943,(-277625),20,"GB");
("EGEF",5953361,(-163215),223,"GB");
("EGEH",6037449,(-92828),100,"GB");
("EGEN",5936773,(-243827),40,"GB");
("EGEO",5645804,(-540087),20,"GB");
("EGEP",5934924,(-290213),91,"GB");
("EGER",5915300,(-264321),39,"GB");
("EGES",5924824,(-257652),66,"GB");
("EGET",6018878,(-124508),43,"GB");
("EGEW",5934977,(-295446),29,"GB");
("EGEY",5605794,(-624705),39,"GB");
("EGFA",5211517,(-455934),428,"GB");
("EGFE",5182739,(-496630),159,"GB");
("EGFF",5140141,(-335855),220,"GB");
("EGFH",5159980,(-407429),299,"GB");
("EGFP",5171091,(-431534),15,"GB");
("EGGD",5138209,(-273350),622,"GB");
("EGGP",5333285,(-286685),80,"GB");
("EGGW",5187202,(-38355),526,"GB");
("EGHA",5096649,(-215921),810,"GB");
("EGHB",5133563,115442,110,"GB");
("EGHC",5010615,(-567258),401,"GB");
("EGHD",5042561,(-411277),475,"GB");
("EGHE",4991532,(-629449),116,"GB");
("EGHF",5081118,(-121392),32,"GB");
("EGHG",5094024,(-266834),207,"GB");
("EGHH",5077747,(-185813),38,"GB");
("EGHI",5094295,(-136088),44,"GB");
("EGHJ",5067981,(-111479),55,"GB");
("EGHL",5118688,(-104353),618,"GB");
("EGHN",5065022,(-118661),60,"GB");
("EGHO",5120925,(-160429),330,"GB");
("EGHP",5119241,(-124199),550,"GB");
("EGHQ",5044704,(-501201),389,"GB");
("EGHR",5086377,(-76524),100,"GB");
("EGHS",5098361,(-236202),184,"GB");
("EGHU",5092752,(-399328),655,"GB");
("EGHY",5028041,(-514560),400,"GB");
("EGJA",4970599,(-222085),291,"FR");
("EGJB",4943468,(-261198),336,"GG");
("EGJJ",4920699,(-220693),277,"JE");
("EGKA",5083134,(-29994),7,"GB");
("EGKB",5132361,2686,598,"GB");
("EGKC",5079920,(-66178),3,"GB");
("EGKE",5120620,82560,600,"GB");
("EGKH",5115763,63644,72,"GB");
("EGKK",5114511,(-21231),196,"GB");
("EGKL",5088064,15323,60,"GB");
("EGKN",5130186,(-9626),566,"GB");
("EGKR",5121252,(-14486),198,"GB");
("EGLA",5050143,(-466921),625,"GB");
("EGLB",5134883,(-47039),50,"GB");
("EGLC",5150557,4434,19,"GB");
("EGLD",5158664,(-51781),249,"GB");
("EGLF",5127056,(-79203),238,"GB");
("EGLG",5180347,(-16434),249,"GB");
("EGLJ",5168209,(-107739),239,"GB");
("EGLK",5132212,(-85666),325,"GB");
("EGLL",5147747,(-48963),83,"GB");
("EGLM",5149864,(-78166),130,"GB");
("EGLP",5138253,(-117483),210,"GB");
("EGLS",5109690,(-178855),285,"GB");
("EGLT",5142141,(-66002),220,"GB");
("EGMA",5207586,5601,124,"GB");
("EGMC",5156724,68624,49,"GB");
("EGMD",5095049,93336,13,"GB");
("EGMF",5133130,59781,420,"GB");
("EGMH",5134455,132683,178,"GB");
("EGMJ",5216704,(-15784),250,"GB");
("EGML",5153223,24116,52,"GB");
("EGMT",5153652,36356,20,"GB");
("EGNA",5301226,(-122111),281,"GB");
("EGNB",5372336,(-57379),12,"GB");
("EGNC",5493330,(-282131),190,"GB");
("EGND",5361991,(-183495),825,"GB");
("EGNE",5327337,(-95700),91,"GB");
("EGNF",5331576,(-119897),250,"GB");
("EGNG",5420965,(-129666),160,"GB");
("EGNH",5377224,(-304269),34,"GB");
("EGNI",5317319,31949,10,"GB");
("EGNJ",5356533,(-35706),121,"GB");
("EGNL",5412400,(-326758),173,"GB");
("EGNM",5387351,(-167229),681,"GB");
("EGNO",5374144,(-290117),55,"GB");
("EGNR",5317122,(-298767),45,"GB");
("EGNS",5408163,(-463708),52,"IM");
("EGNT",5503353,(-170637),266,"GB");
("EGNU",5397725,(-86762),86,"GB");
("EGNV",5450223,(-144246),120,"GB");
("EGNW",5331393,(-35120),84,"GB");
("EGNX",5283061,(-134960),306,"GB");
("EGNY",5389999,(-36682),4,"GB");
("EGOD",5281524,(-413029),19,"GB");
("EGOE",5287059,(-253608),272,"GB");
("EGOQ",5325337,(-438160),193,"GB");
("EGOS",5280185,(-266798),249,"GB");
("EGOV",5325388,(-454656),37,"GB");
("EGOW",5357531,(-306388),37,"GB");
("EGOY",5484704,(-496026),57,"GB");
("EGPA",5895772,(-291315),51,"GB");
("EGPB",5988072,(-130716),20,"GB");
("EGPC",5846368,(-310545),126,"GB");
("EGPD",5720957,(-220343),215,"GB");
("EGPE",5753698,(-405953),31,"GB");
("EGPF",5586348,(-444906),26,"GB");
("EGPG",5597355,(-398170),370,"GB");
("EGPH",5594400,(-339015),135,"GB");
("EGPI",5568699,(-627026),54,"GB");
("EGPJ",5618179,(-322515),398,"GB");
("EGPK",5548700,(-458846),65,"GB");
("EGPL",5747642,(-737525),19,"GB");
("EGPM",6042919,(-130625),81,"GB");
("EGPN",5645246,(-303718),17,"GB");
("EGPO",5822433,(-633272),26,"GB");
("EGPR",5702533,(-744708),3,"GB");
("EGPT",5643775,(-337719),397,"GB");
("EGPU",5649471,(-687787),38,"GB");
("EGPW",6074795,(-85939),62,"GB");
("EGQK",5764596,(-357882),22,"GB");
("EGQL",5637304,(-288172),38,"GB");
("EGQS",5769797,(-335342),41,"GB");
("EGSA",5262573,92594,210,"GB");
("EGSB",5214071,(-40644),70,"GB");
("EGSC",5219934,16406,47,"GB");
("EGSD",5263477,171791,1,"GB");
("EGSE",5202585,118655,128,"GB");
("EGSF",5246774,(-24393),26,"GB");
("EGSG",5164874,15101,185,"GB");
("EGSH",5267583,126905,117,"GB");
("EGSJ",5250912,141211,130,"GB");
("EGSK",5256271,117491,161,"GB");
("EGSL",5189465,44484,286,"GB");
("EGSM",5243534,161976,80,"GB");
("EGSN",5221344,(-4472),225,"GB");
("EGSO",5217313,110642,201,"GB");
("EGSP",5255854,(-38908),129,"GB");
("EGSQ",5178772,113006,37,"GB");
("EGSR",5191185,67565,227,"GB");
("EGSS",5187503,21986,348,"GB");
("EGST",5207283,97310,226,"GB");
("EGSU",5208707,12254,125,"GB");
("EGSV",5250119,105306,193,"GB");
("EGSW",5223790,34621,100,"GB");
("EGSX",5171387,15076,321,"GB");
("EGSY",5339470,(-139756),231,"GB");
("EGTA",5177287,(-94364),289,"GB");
("EGTB",5161021,(-81289),520,"GB");
("EGTC",5206525,(-62358),358,"GB");
("EGTD",5111389,(-54830),170,"GB");
("EGTE",5073207,(-342801),102,"GB");
("EGTF",5134608,(-56366),80,"GB");
("EGTG",5151937,(-260793),225,"GB");
("EGTH",5208225,(-32198),110,"GB");
("EGTK",5183007,(-132205),270,"GB");
("EGTN",5193240,(-142239),550,"GB");
("EGTO",5135593,50036,425,"GB");
("EGTP",5032887,(-518534),330,"GB");
("EGTR",5165530,(-33048),332,"GB");
("EGTU",5085670,(-323930),838,"GB");
("EGTW",5163537,(-200905),250,"GB");
("EGUB",5160692,(-109765),226,"GB");
("EGUD",5169626,(-131765),229,"GB");
("EGUL",5240246,54439,32,"GB");
("EGUN",5236547,46188,33,"GB");
("EGUO",5143762,(-229105),593,"GB");
("EGUW",5211974,94232,284,"GB");
("EGUY",5235540,(-12954),135,"GB");
("EGVA",5168300,(-181200),286,"GB");
("EGVN",5174607,(-160421),289,"GB");
("EGVO",5123456,(-95588),405,"GB");
("EGVP",5114573,(-157608),296,"GB");
("EGWC",5263781,(-231239),272,"GB");
("EGWE",5201440,(-30449),170,"GB");
("EGWN",5178717,(-73941),370,"GB");
("EGWU",5155006,(-43102),124,"GB");
("EGXC",5308934,(-18556),25,"GB");
("EGXD",5414414,(-142692),117,"GB");
("EGXE",5430197,(-154271),132,"GB");
("EGXG",5382980,(-120661),29,"GB");
("EGXH",5234095,75311,174,"GB");
("EGXJ",5272652,(-66213),461,"GB");
("EGXP",5329868,(-56435),202,"GB");
("EGXT",5260950,(-49550),273,"GB");
("EGXU",5404238,(-126042),53,"GB");
("EGXW",5315466,(-53148),231,"GB");
("EGXY",5301928,(-92448),228,"GB");
("EGXZ",5419774,(-138706),92,"GB");
("EGYC",5274649,134760,64,"GB");
("EGYD",5302873,(-50574),218,"GB");
("EGYE",5295855,(-57184),367,"GB");
("EGYJ",5394178,(-117070),65,"GB");
("EGYM",5264121,53351,75,"GB");
("EGYP",(-5181770),(-5847514),244,"FK");
("EHAL",5345345,567265,11,"NL");
("EHAM",5231662,474630,(-11),"NL");
("EHBD",5125152,559765,114,"NL");
("EHBK",5090184,576005,375,"NL");
("EHBX",5248460,460808,10,"NL");
("EHDL",5204703,586552,158,"NL");
("EHDP",5152206,587414,96,"NL");
("EHDR",5311726,612227,14,"NL");
("EHDS",5246504,633130,16,"NL");
("EHDV",5267109,593332,1,"NL");
("EHEH",5143909,536214,74,"NL");
("EHGG",5311108,656090,17,"NL");
("EHGR",5156954,491198,49,"NL");
("EHHO",5273078,651611,42,"NL");
("EHHS",5168334,370255,25,"NL");
("EHHV",5219100,514068,3,"NL");
("EHKD",5291873,477534,3,"NL");
("EHLE",5245116,551101,(-39),"NL");
("EHLV",5233328,453156,134,"NL");
("EHLW",5321917,573809,4,"NL");
("EHMD",5177535,587766,115,"NL");
("EHMZ",5151244,373980,6,"NL");
("EHNP",5273024,574066,(-8),"NL");
("EHNR",5168463,554189,25,"NL");
("EHOW",5319967,702688,2,"NL");
("EHRD",5195209,442824,(-15),"NL");
("EHSB",5212748,525395,66,"NL");
("EHSE",5155340,454764,30,"NL");
("EHTE",5224247,604164,17,"NL");
("EHTL",5207165,596101,264,"NL");
("EHTW",5226818,687123,114,"NL");
("EHTX",5311178,482704,2,"NL");
("EHVK",5164997,568928,72,"NL");
("EHWO",5144517,432567,63,"NL");
("EIAB",5359186,(-765310),189,"IE");
("EIBN",5166850,(-948737),6,"IE");
("EIBR",5307091,(-789859),250,"IE");
("EIBT",5422590,(-1004278),149,"IE");
("EICA",5322866,(-947082),69,"IE");
("EICD",5353988,(-1008638),65,"IE");
("EICK",5185008,(-849615),502,"IE");
("EICL",5324921,(-712969),149,"IE");
("EICM",5329878,(-895053),81,"IE");
("EICN",5266640,(-868494),17,"IE");
("EICS",5378281,(-784040),149,"IE");
("EIDL",5503789,(-834508),29,"IE");
("EIDW",5342243,(-629007),242,"IE");
("EIGN",5318583,(-663736),490,"IE");
("EIHN",5285705,(-654216),609,"IE");
("EIIB",5361704,(-1021162),32,"IE");
("EIIM",5310856,(-965642),29,"IE");
("EIIR",5305988,(-950975),40,"IE");
("EIKH",5306485,(-686066),303,"IE");
("EIKK",5264994,(-730400),299,"IE");
("EIKL",5265000,(-730965),300,"IE");
("EIKN",5390830,(-883562),665,"IE");
("EIKY",5217799,(-953763),111,"IE");
("EILT",5494951,(-767679),20,"IE");
("EIME",5330469,(-646882),319,"IE");
("EIMH",5363815,(-688158),229,"IE");
("EIMN",5309508,(-957115),15,"IE");
("EIMY",5270081,(-770650),399,"IE");
("EINC",5307786,(-603701),0,"IE");
("EINN",5269317,(-894352),46,"IE");
("EIPT",5317975,(-620073),426,"IE");
("EIRT",5210856,(-899686),280,"IE");
("EISG",5428115,(-860795),11,"IE");
("EISP",5284477,(-941636),17,"IE");
("EITM",5357439,(-674244),200,"IE");
("EITT",5354146,(-653589),384,"IE");
("EIWF",5218117,(-709067),119,"IE");
("EIWT",5335026,(-649500),154,"IE");
("EKAE",5485565,1045327,0,"DK");
("EKAH",5630743,1059780,82,"DK");
("EKAL",5587558,1231095,128,"DK");
("EKAT",5669611,1155361,23,"DK");
("EKAV",5508586,1175090,2,"DK");
("EKBI",5573979,913483,247,"DK");
("EKCH",5560310,1263304,17,"DK");
("EKEB",5552385,853341,97,"DK");
("EKEL",5575789,1024411,6,"DK");
("EKFR",5589699,1224369,59,"DK");
("EKFU",5682601,898270,11,"DK");
("EKGH",5594247,1237379,97,"DK");
("EKGR",5643863,1092919,33,"DK");
("EKHE",5598519,1221056,52,"DK");
("EKHG",5618498,903600,167,"DK");
("EKHK",5573442,1160055,16,"DK");
("EKHO",5639529,843457,49,"DK");
("EKHS",5675611,1022333,7,"DK");
("EKHV",5530242,951593,81,"DK");
("EKKA",5629908,907762,170,"DK");
("EKKL",5569991,1124450,0,"DK");
("EKKO",5533869,1123672,40,"DK");
("EKLS",5727548,1099311,25,"DK");
("EKLV",5650247,830562,100,"DK");
("EKMB",5470007,1142918,16,"DK");
("EKMN",5496559,1218595,0,"DK");
("EKNM",5682533,878086,51,"DK");
("EKOD",5547149,1031529,56,"DK");
("EKPB",5486693,927304,88,"DK");
("EKRA",5577856,993568,130,"DK");
("EKRD",5650556,1002917,153,"DK");
("EKRK",5559000,1211556,146,"DK");
("EKRN",5506688,1474521,52,"DK");
("EKRR",5520930,1487682,333,"DK");
("EKRS",5542404,1180286,112,"DK");
("EKSA",5734711,1040405,115,"DK");
("EKSB",5496895,978489,24,"DK");
("EKSD",5610494,851050,245,"DK");
("EKSN",5750317,1021939,92,"DK");
("EKSP",5522460,924394,141,"DK");
("EKSS",5589064,1060820,0,"DK");
("EKST",5501787,1055641,16,"DK");
("EKSV",5655430,916665,74,"DK");
("EKTD",5493137,883420,6,"DK");
("EKTS",5707006,869224,23,"DK");
("EKVA",5569865,916975,241,"DK");
("EKVB",5641068,940596,80,"DK");
("EKVD",5543113,932805,143,"DK");
("EKVG",6206621,(-728761),280,"FO");
("EKVH",5684862,944913,119,"DK");
("EKVJ",5599040,834230,17,"DK");
("EKYT",5709371,983338,10,"DK");
("ELLX",4961764,618740,1158,"LU");
("ENAL",6255593,608984,69,"NO");
("ENAN",6930909,1611646,43,"NO");
("ENAS",7892950,1185527,50,"SJ");
("ENAT",6998242,2334099,9,"NO");
("ENBJ",7450790,1900370,52,"NO");
("ENBL",6139063,575279,1046,"NO");
("ENBM",6063854,649238,298,"NO");
("ENBN",6545406,1220369,25,"NO");
("ENBO",6726529,1431831,42,"NO");
("ENBR",6030662,521370,165,"NO");
("ENBS",7059601,2968811,490,"NO");
("ENBV",7087044,2902191,42,"NO");
("ENCN",5819670,807541,57,"NO");
("ENDI",6041497,849824,2618,"NO");
("ENDU",6905952,1850984,252,"NO");
("ENEG",6021376,1031836,650,"NO");
("ENEN",6796861,1499906,9,"NO");
("ENEV",6850391,1667667,84,"NO");
("ENFA",6369784,875523,152,"NO");
("ENFG",6101922,928357,2697,"NO");
("ENFL",6158080,500741,37,"NO");
("ENFY",5919923,808692,990,"NO");
("ENGK",5851510,869899,410,"NO");
("ENGM",6018475,1107369,681,"NO");
("ENGN",6211588,1010088,2263,"NO");
("ENHA",6082336,1106431,730,"NO");
("ENHD",5935066,519754,76,"NO");
("ENHF",7067736,2365828,266,"NO");
("ENHK",7048838,2213045,21,"NO");
("ENHN",6088124,1166911,715,"NO");
("ENHT",6559478,1397865,688,"NO");
("ENHV",7100967,2597186,46,"NO");
("ENJA",7092611,(-870852),33,"SJ");
("ENJB",5930272,1037661,90,"NO");
("ENKA",6903606,2303089,1132,"NO");
("ENKB",6310917,780675,204,"NO");
("ENKJ",5997330,1102391,354,"NO");
("ENKR",6972218,2986794,283,"NO");
("ENLI",5810854,660692,29,"NO");
("ENLK",6814912,1360460,78,"NO");
("ENLU",5929927,912551,190,"NO");
("ENMH",7102557,2782587,39,"NO");
("ENML",6274250,724800,10,"NO");
("ENMS",6578771,1321172,237,"NO");
("ENNA",7008125,2497058,25,"NO");
("ENNK",6843317,1738234,95,"NO");
("ENNM",6447123,1157016,7,"NO");
("ENNO",5956945,920206,63,"NO");
("ENOL",6370986,959199,28,"NO");
("ENOP",6264884,983893,1830,"NO");
("ENOV",6217805,606638,243,"NO");
("ENRA",6636667,1429540,226,"NO");
("ENRI",6154600,1005630,570,"NO");
("ENRK",5940094,1134315,380,"NO");
("ENRM",6483412,1113700,13,"NO");
("ENRO",6258470,1133313,2054,"NO");
("ENRS",6752379,1209742,7,"NO");
("ENRV",6067525,1056477,1381,"NO");
("ENRY",5938374,1076625,174,"NO");
("ENSA",7786156,1666808,7,"SJ");
("ENSB",7824879,1541805,88,"SJ");
("ENSD",6182989,610153,177,"NO");
("ENSG",6115325,712741,1633,"NO");
("ENSH",6824675,1467097,27,"NO");
("ENSI",5970948,1088246,351,"NO");
("ENSK",6858091,1500975,11,"NO");
("ENSN",5917881,956524,463,"NO");
("ENSO",5979728,533335,161,"NO");
("ENSR",6978329,2096442,16,"NO");
("ENSS",7035988,3104175,42,"NO");
("ENST",6595243,1246396,56,"NO");
("ENSU",6265714,867533,196,"NO");
("ENTC",6967250,1891291,31,"NO");
("ENTO",5920012,1025832,286,"NO");
("ENVA",6345766,1088929,56,"NO");
("ENVD",7006502,2983244,125,"NO");
("ENVE",5903509,755638,770,"NO");
("ENZV",5889370,563733,29,"NO");
("EPBC",5227125,2090245,352,"PL");
("EPBP",5200088,2312694,465,"PL");
("EPBY",5309529,1795906,236,"PL");
("EPCE",5441336,1774456,495,"PL");
("EPCH",5088357,1918925,860,"PL");
("EPDA",5440287,1634994,9,"PL");
("EPDE",5155689,2187548,388,"PL");
("EPDK",5108074,2343621,694,"PL");
("EPGD",5438107,1845205,489,"PL");
("EPKK",5007540,1976810,791,"PL");
("EPKM",5023489,1902825,909,"PL");
("EPKN",5053316,1806998,683,"PL");
("EPKS",5233698,1695020,265,"PL");
("EPKT",5047431,1905464,995,"PL");
("EPLB",5123774,2269596,633,"PL");
("EPLE",5118151,1616706,407,"PL");
("EPLK",5155358,1916160,633,"PL");
("EPLL",5171621,1937208,606,"PL");
("EPLR",5122082,2239056,787,"PL");
("EPLU",5142587,1619074,512,"PL");
("EPMB",5402944,1915611,16,"PL");
("EPMI",5340149,1606737,459,"PL");
("EPML",5032672,2145306,547,"PL");
("EPMM",5219550,2163759,604,"PL");
("EPMO",5244954,2063355,341,"PL");
("EPNM",5162495,2051897,511,"PL");
("EPNT",4946573,2004233,2060,"PL");
("EPOK",5458783,1850383,144,"PL");
("EPPI",5316059,1670030,259,"PL");
("EPPO",5242494,1680609,308,"PL");
("EPPR",5424941,1865674,21,"PL");
("EPPW",5238383,1782741,380,"PL");
("EPRA",5138655,2119773,623,"PL");
("EPRP",5147649,2110345,484,"PL");
("EPRZ",5011019,2200155,675,"PL");
("EPSA",5145611,2354481,515,"PL");
("EPSC",5359208,1488792,154,"PL");
("EPSD",5339297,1462698,2,"PL");
("EPSK",5447833,1709056,217,"PL");
("EPSN",5379468,1580856,385,"PL");
("EPSO",5220173,2027368,259,"PL");
("EPST",5062804,2199257,492,"PL");
("EPSY",5347121,2093173,463,"PL")].
(** openap/data/nav/airports.csv:1502-2001 *)
Definition apts03 : list apt := [
("EPTM",5158840,2008428,603,"PL");
("EPTO",5303049,1853779,164,"PL");
("EPWA",5217147,2094663,328,"PL");
("EPWI",5455042,1661868,6,"PL");
("EPWR",5110880,1686583,404,"PL");
("EPWT",5329775,1840691,298,"PL");
("EPZA",5070336,2319951,751,"PL");
("EPZG",5213382,1578194,193,"PL");
("ESCF",5838674,1551599,308,"SE");
("ESCK",5861944,1609321,90,"SE");
("ESCM",5989478,1757000,68,"SE");
("ESDF",5625693,1526255,191,"SE");
("ESFR",5850702,1305460,230,"SE");
("ESFS",5706567,1686494,16,"SE");
("ESGA",5817878,1197874,424,"SE");
("ESGC",5813687,1360484,1098,"SE");
("ESGD",5819425,1399929,456,"SE");
("ESGE",5769827,1284720,563,"SE");
("ESGF",5697132,1239493,36,"SE");
("ESGG",5764953,1226771,506,"SE");
("ESGH",5809849,1310812,480,"SE");
("ESGI",5795300,1257914,226,"SE");
("ESGJ",5774819,1406299,741,"SE");
("ESGK",5816481,1358186,785,"SE");
("ESGL",5846135,1315934,200,"SE");
("ESGM",5744370,1264401,378,"SE");
("ESGN",5857724,1361551,259,"SE");
("ESGP",5776589,1186883,59,"SE");
("ESGR",5844888,1396861,324,"SE");
("ESGS",5901343,1133968,115,"NO");
("ESGT",5832423,1233662,137,"SE");
("ESGU",5836544,1177271,120,"SE");
("ESGV",5712337,1222374,3,"SE");
("ESGY",5908726,1295701,151,"SE");
("ESIA",5850917,1448974,308,"SE");
("ESIB",5841816,1270967,181,"SE");
("ESKB",5941682,1788279,50,"SE");
("ESKC",5992032,1753385,62,"SE");
("ESKD",6055958,1438147,773,"SE");
("ESKG",6029096,1742071,105,"SE");
("ESKH",6015678,1352641,460,"SE");
("ESKK",5933962,1449101,400,"SE");
("ESKM",6096561,1450599,634,"SE");
("ESKN",5878666,1688037,140,"SE");
("ESKO",5979614,1348748,279,"SE");
("ESKU",5985687,1311158,380,"SE");
("ESKV",5967071,1263874,237,"SE");
("ESMA",5660517,1560184,442,"SE");
("ESMB",5686060,1665362,118,"SE");
("ESMC",5766198,1494528,720,"SE");
("ESMD",5618736,1374737,184,"SE");
("ESME",5584189,1332980,196,"SE");
("ESMF",5638531,1347095,378,"SE");
("ESMG",5694534,1391879,534,"SE");
("ESMH",5618640,1257179,21,"SE");
("ESMI",5559651,1368272,118,"SE");
("ESMJ",5599621,1304729,276,"SE");
("ESMK",5591182,1408333,76,"SE");
("ESML",5594697,1286115,194,"SE");
("ESMN",5568697,1321311,80,"SE");
("ESMO",5734211,1649660,96,"SE");
("ESMP",5726042,1359508,507,"SE");
("ESMQ",5669682,1627666,17,"SE");
("ESMS",5554806,1337378,236,"SE");
("ESMT",5668100,1281821,101,"SE");
("ESMU",5656819,1416392,480,"SE");
("ESMV",5728550,1412561,556,"SE");
("ESMW",5653039,1496249,426,"SE");
("ESMX",5691994,1472409,610,"SE");
("ESMY",5716594,1343566,540,"SE");
("ESMZ",5732632,1706098,28,"SE");
("ESNA",6374177,1545182,1119,"SE");
("ESNB",6316824,1699069,433,"SE");
("ESNC",6240661,1373889,1460,"SE");
("ESND",6204734,1440480,1178,"SE");
("ESNE",6653270,2236315,295,"SE");
("ESNG",6713601,2079719,1027,"SE");
("ESNH",6177158,1707062,95,"SE");
("ESNJ",6650350,2013408,904,"SE");
("ESNK",6305747,1776594,34,"SE");
("ESNL",6455673,1870146,705,"SE");
("ESNM",6313310,1480278,1236,"SE");
("ESNN",6253656,1743734,16,"SE");
("ESNO",6341398,1897108,354,"SE");
("ESNP",6540263,2125778,43,"SE");
("ESNQ",6781265,2032031,1508,"SE");
("ESNR",6118605,1470834,683,"SE");
("ESNS",6462741,2105578,155,"SE");
("ESNT",6248604,1698636,886,"SE");
("ESNU",6379854,2026931,24,"SE");
("ESNV",6458062,1681832,1140,"SE");
("ESNX",6559856,1925617,1245,"SE");
("ESNY",6126870,1708093,88,"SE");
("ESNZ",6319881,1447944,1231,"SE");
("ESOE",5921098,1503281,188,"SE");
("ESOH",6002682,1357812,474,"SE");
("ESOK",5943453,1332776,352,"SE");
("ESOL",6058914,1659164,210,"SE");
("ESOW",5957848,1662925,21,"SE");
("ESPA",6555480,2209741,65,"SE");
("ESPE",6587980,2012807,597,"SE");
("ESQO",5939414,1591447,33,"SE");
("ESSA",5963726,1791322,137,"SE");
("ESSB",5935927,1792796,47,"SE");
("ESSC",5937970,1644198,43,"SE");
("ESSD",6042909,1549988,503,"SE");
("ESSE",5934377,1774720,17,"SE");
("ESSF",5752958,1580936,366,"SE");
("ESSG",6009182,1509766,892,"SE");
("ESSH",5898219,1466979,389,"SE");
("ESSI",5809349,1439090,309,"SE");
("ESSK",6060211,1695154,224,"SE");
("ESSL",5840990,1566337,172,"SE");
("ESSM",5960902,1391921,588,"SE");
("ESSN",5973370,1870189,40,"SE");
("ESSP",5858611,1623169,32,"SE");
("ESST",6016398,1298604,393,"SE");
("ESSU",5935954,1670784,139,"SE");
("ESSV",5765441,1834021,164,"SE");
("ESSW",5777689,1652698,129,"SE");
("ESSX",5957823,1650894,25,"SE");
("ESSZ",5910033,1721386,56,"SE");
("ESTA",5629778,1284418,68,"SE");
("ESTL",5608734,1317788,140,"SE");
("ESTO",5554339,1400652,220,"SE");
("ESTT",5538822,1301872,12,"SE");
("ESUB",6150936,1637204,378,"SE");
("ESUD",6496990,1768508,915,"SE");
("ESUE",6187560,1268135,1477,"NO");
("ESUG",6530841,1797507,980,"SE");
("ESUH",6263420,1797555,271,"SE");
("ESUJ",6256273,1583905,427,"SE");
("ESUK",6777036,2024857,1549,"SE");
("ESUL",6181687,1599827,485,"SE");
("ESUM",6129291,1683991,215,"SE");
("ESUP",6724884,2305453,542,"SE");
("ESUR",6349305,1647847,660,"SE");
("ESUS",6415668,1728473,1011,"SE");
("ESUT",6581205,1507520,1503,"NO");
("ESUV",6564826,2106673,227,"SE");
("ESUY",6138566,1583933,515,"SE");
("ESVA",6018305,1611981,320,"SE");
("ESVB",5784859,1904030,66,"SE");
("ESVF",5946147,1772871,30,"SE");
("ESVG",6055135,1507621,575,"SE");
("ESVH",5987074,1442372,600,"SE");
("ESVK",5902561,1621793,132,"SE");
("ESVM",6065549,1372912,975,"SE");
("ESVQ",5952637,1596392,25,"SE");
("ESVS",6078181,1483262,611,"SE");
("ETAD",4996679,668356,1197,"DE");
("ETAR",4943256,757883,781,"DE");
("ETEJ",4991667,1091000,823,"DE");
("ETHB",5227665,906909,230,"DE");
("ETHC",5258987,1000880,129,"DE");
("ETHE",5229083,738333,129,"DE");
("ETHF",5111676,927942,566,"DE");
("ETHL",4822067,989896,1766,"DE");
("ETHM",5036417,730433,597,"DE");
("ETHN",4939067,995150,1536,"DE");
("ETHR",4921717,1109633,1268,"DE");
("ETHS",5291951,1016570,245,"DE");
("ETHT",5176665,1428079,131,"DE");
("ETIC",4970232,1193603,1363,"DE");
("ETIH",4921806,1183167,1455,"DE");
("ETMN",5376545,864039,74,"DE");
("ETND",5258517,833153,127,"DE");
("ETNG",5096101,602004,296,"DE");
("ETNH",5431015,951974,39,"DE");
("ETNJ",5353583,787033,24,"DE");
("ETNL",5391967,1226033,138,"DE");
("ETNN",5082682,664222,386,"DE");
("ETNS",5445200,950250,70,"DE");
("ETNT",5354567,764933,26,"DE");
("ETNU",5360197,1328868,228,"DE");
("ETNW",5245617,941350,187,"DE");
("ETOI",4963444,1176028,1353,"DE");
("ETOR",4956089,845859,309,"DE");
("ETOU",5004705,831103,461,"DE");
("ETSA",4806767,1089283,2044,"DE");
("ETSB",5016397,705471,1568,"DE");
("ETSE",4832037,1193315,1515,"DE");
("ETSF",4820617,1124883,1703,"DE");
("ETSH",5176850,1315017,265,"DE");
("ETSI",4870450,1151867,1202,"DE");
("ETSL",4817589,1085321,1822,"DE");
("ETSN",4871117,1119500,1249,"DE");
("ETUO",5192305,828997,236,"DE");
("ETWM",5272153,732632,68,"DE");
("EVLA",5651449,2108176,16,"LV");
("EVRA",5693507,2397308,34,"LV");
("EVVA",5735305,2153791,19,"LV");
("EYKA",5496267,2405949,256,"LT");
("EYKS",5488056,2387306,246,"LT");
("EYPA",5596446,2109032,33,"LT");
("EYPP",5573611,2445056,197,"LT");
("EYSA",5590690,2337940,443,"LT");
("EYSB",5607164,2355027,270,"LT");
("EYVI",5462373,2527855,646,"LT");
("FAAB",(-2858443),1653605,98,"NA");
("FAAG",(-2928769),1880626,2648,"ZA");
("FAAL",(-2267965),2904850,2600,"BW");
("FABB",(-2623068),2829922,5300,"ZA");
("FABE",(-3290337),2726796,1950,"ZA");
("FABL",(-2910503),2630240,4458,"ZA");
("FABM",(-2824483),2832899,5561,"ZA");
("FABO",(-2736992),2662389,4236,"ZA");
("FACT",(-3398802),1860902,151,"ZA");
("FACV",(-3150216),1972061,3250,"ZA");
("FADK",(-2837351),3224580,210,"ZA");
("FADN",(-2997893),3094302,33,"ZA");
("FAEL",(-3303725),2781193,435,"ZA");
("FAEO",(-2649294),2997271,5700,"ZA");
("FAFB",(-2882633),2790283,5315,"ZA");
("FAGC",(-2597893),2813590,5325,"ZA");
("FAGG",(-3400587),2236767,648,"ZA");
("FAGM",(-2624254),2814052,5483,"ZA");
("FAGR",(-3219747),2454029,2604,"ZA");
("FAGT",(-3328092),2649375,2135,"ZA");
("FAGY",(-2912742),3058108,3531,"ZA");
("FAHA",(-2808175),2685550,4399,"ZA");
("FAHR",(-2823129),2910181,5585,"ZA");
("FAHS",(-2433761),3104696,1743,"ZA");
("FAHV",(-3056594),2552045,4176,"ZA");
("FAJS",(-2614632),2823434,5558,"ZA");
("FAKD",(-2686452),2671626,4444,"ZA");
("FAKM",(-2882007),2476511,3950,"ZA");
("FAKN",(-2539273),3109806,2829,"ZA");
("FAKR",(-2608262),2772168,5499,"ZA");
("FAKS",(-2766529),2730846,4700,"ZA");
("FAKU",(-2746433),2341078,4382,"ZA");
("FAKZ",(-2969512),1709333,270,"ZA");
("FALA",(-2594782),2791496,4517,"ZA");
("FALC",(-2835572),2343263,4900,"ZA");
("FALE",(-2962505),3110775,304,"ZA");
("FALI",(-2617014),2618306,4875,"ZA");
("FALL",(-3040578),2509985,255,"ZA");
("FALM",(-2315754),2967941,3069,"ZA");
("FALO",(-2306278),2985892,3025,"ZA");
("FALW",(-3297825),1816619,108,"ZA");
("FALY",(-2858195),2974358,3548,"ZA");
("FAMB",(-2567984),2943303,4886,"ZA");
("FAMD",(-2481315),3154013,1124,"ZA");
("FAMG",(-3086302),3034014,495,"ZA");
("FAMI",(-2499257),2927978,2980,"ZA");
("FAMJ",(-2707559),2977218,5600,"ZA");
("FAMM",(-2581759),2553913,4181,"ZA");
("FAMN",(-2547532),3155994,1153,"ZA");
("FAMS",(-2571060),2690697,4251,"ZA");
("FAMU",(-2761845),3204056,400,"ZA");
("FANC",(-2777048),2996927,4074,"ZA");
("FANY",(-2468653),2842892,3900,"ZA");
("FAOB",(-3455439),2025029,52,"ZA");
("FAOH",(-3361458),2218756,1063,"ZA");
("FAPE",(-3399296),2560105,226,"ZA");
("FAPG",(-3408942),2332123,465,"ZA");
("FAPH",(-2394236),3115670,1432,"ZA");
("FAPI",(-2393109),2947474,4354,"ZA");
("FAPJ",(-3160805),2951463,1227,"ZA");
("FAPL",(-2735940),3160316,890,"ZA");
("FAPM",(-2964317),3039424,2423,"ZA");
("FAPN",(-2534369),2716533,3412,"ZA");
("FAPP",(-2386034),2945892,4076,"ZA");
("FAPS",(-2667757),2708019,4520,"ZA");
("FAPY",(-2689377),2749875,4740,"ZA");
("FAQT",(-3191971),2687605,3637,"ZA");
("FARB",(-2874589),3208838,109,"ZA");
("FARG",(-2563972),2726770,3700,"ZA");
("FARS",(-3381234),1990168,640,"ZA");
("FASB",(-2969132),1793170,2690,"ZA");
("FASC",(-2652403),2916462,5250,"ZA");
("FASD",(-3297055),1796980,50,"ZA");
("FASH",(-3398425),1882352,321,"ZA");
("FASI",(-2625533),2839528,5340,"ZA");
("FASK",(-2581821),2816382,4780,"ZA");
("FASS",(-2764151),2299554,3848,"ZA");
("FASX",(-3404411),2046782,407,"ZA");
("FASZ",(-2495451),3158561,1020,"ZA");
("FATF",(-2826677),2299180,4360,"ZA");
("FATP",(-2904857),2616112,4547,"ZA");
("FATT",(-2678296),2933643,5313,"ZA");
("FATZ",(-2382852),3032396,1914,"ZA");
("FAUL",(-2832551),3141271,1720,"ZA");
("FAUP",(-2837991),2125203,2791,"ZA");
("FAUT",(-3154434),2866468,2400,"ZA");
("FAVB",(-2697721),2472712,3920,"ZA");
("FAVG",(-2977437),3105629,20,"ZA");
("FAVM",(-2245033),2933067,2333,"BW");
("FAVR",(-3164420),1853907,330,"ZA");
("FAVV",(-2657734),2795939,4846,"ZA");
("FAWB",(-2565325),2821207,4095,"ZA");
("FAWI",(-2583769),2918996,5078,"ZA");
("FAWK",(-2584384),2822479,4940,"ZA");
("FAWM",(-2800391),2666185,4399,"ZA");
("FAYP",(-3390730),1849900,52,"ZA");
("FAZR",(-2560689),2603794,4258,"ZA");
("FBCO",(-1912530),2309560,3150,"BW");
("FBFT",(-2115833),2746405,3283,"BW");
("FBGH",(-2543590),2540320,4218,"BW");
("FBGM",(-1935000),2214170,3150,"BW");
("FBJW",(-2460550),2468347,3900,"BW");
("FBKD",(-1821250),2339290,3100,"NA");
("FBKE",(-1783584),2515345,3289,"BW");
("FBKF",(-1950080),2099530,3600,"BW");
("FBKR",(-1914440),2377750,3000,"BW");
("FBKY",(-2505430),2531390,4200,"BW");
("FBLT",(-2142060),2557260,3241,"BW");
("FBMG",(-2318160),2749480,2747,"BW");
("FBML",(-2439380),2549590,3790,"BW");
("FBMM",(-2031070),2390250,3100,"BW");
("FBMN",(-1997621),2342241,3093,"BW");
("FBNN",(-1968240),2219590,3200,"BW");
("FBNT",(-2023330),2616140,2690,"BW");
("FBNX",(-1860300),2206960,3250,"BW");
("FBOK",(-2308330),2187970,3500,"BW");
("FBPD",(-1853100),2562900,3600,"BW");
("FBPY",(-2255170),2712830,3000,"BW");
("FBSK",(-2456167),2590517,3299,"BW");
("FBSN",(-2055171),2610811,2985,"BW");
("FBSP",(-2205672),2782032,2925,"BW");
("FBSV",(-1852840),2407030,3150,"NA");
("FBTE",(-2403560),2189570,3700,"BW");
("FBTP",(-2422701),2533397,3750,"BW");
("FBTS",(-2603730),2239760,3150,"BW");
("FBXB",(-1954940),2305600,3150,"BW");
("FBXG",(-1905450),2308750,3000,"BW");
("FCBB",(-426127),1524163,1048,"CG");
("FCOO",(-53283),1594216,1214,"CG");
("FCOU",160706,1603565,1158,"CG");
("FCPP",(-480462),1188376,55,"CG");
("FDMS",(-2653601),3129704,2075,"SZ");
("FEFF",440983,1851585,1208,"CF");
("FEFT",422909,1578468,1929,"CF");
("FGBT",189866,979977,13,"GQ");
("FGSL",374541,869991,76,"GQ");
("FHAW",(-796341),(-1440606),278,"SH");
("FIMP",(-2042332),5766925,186,"MU");
("FIMR",(-1975607),6335507,95,"MU");
("FJDG",(-730457),7239700,9,"MV");
("FKKC",408468,935627,151,"CM");
("FKKD",401187,970804,33,"CM");
("FKKL",1045743,1424997,1390,"CM");
("FKKM",562941,1074502,3963,"CM");
("FKKN",734599,1355474,3655,"CM");
("FKKR",933490,1335483,794,"CM");
("FKKU",554641,1034843,4347,"CM");
("FKKV",605042,1012090,4065,"CM");
("FKKY",382784,1151979,2464,"CM");
("FKYS",370741,1155063,2278,"CM");
("FLKE",(-1257119),2788789,4636,"ZM");
("FLLC",(-1541664),2832167,4200,"ZM");
("FLLI",(-1782089),2580973,3302,"ZM");
("FLLS",(-1532920),2843431,3779,"ZM");
("FLMF",(-1326016),3192653,1853,"ZM");
("FLMG",(-1525508),2315531,3488,"ZM");
("FLND",(-1299735),2865404,4167,"ZM");
("FLSO",(-1289802),2814092,4145,"ZM");
("FMCH",(-1154659),4326955,93,"KM");
("FMCI",(-1229489),4376139,46,"KM");
("FMCV",(-1213100),4442419,62,"KM");
("FMCZ",(-1280219),4527792,23,"YT");
("FMEE",(-2088596),5550462,66,"RE");
("FMEP",(-2131476),5541658,56,"RE");
("FMMA",(-1902572),4716040,4757,"MG");
("FMMI",(-1879479),4746427,4198,"MG");
("FMMN",(-1955861),4544806,203,"MG");
("FMMS",(-1709898),4981671,7,"MG");
("FMMT",(-1811942),4939365,22,"MG");
("FMMV",(-2028487),4431479,30,"MG");
("FMNA",(-1234562),4928606,374,"MG");
("FMNC",(-1616326),4976790,9,"MG");
("FMND",(-1465722),4962000,1552,"MG");
("FMNE",(-1318685),4898126,72,"MG");
("FMNH",(-1499427),5031857,20,"MG");
("FMNL",(-1462868),4775831,345,"MG");
("FMNM",(-1566046),4634422,87,"MG");
("FMNN",(-1331932),4830791,36,"MG");
("FMNQ",(-1674353),4447589,125,"MG");
("FMNR",(-1543417),4968361,13,"MG");
("FMNS",(-1427389),5017166,20,"MG");
("FMNV",(-1337194),4999833,19,"MG");
("FMNW",(-1490551),4799359,92,"MG");
("FMNZ",(-1348010),4862874,49,"MG");
("FMSD",(-2504342),4695052,29,"MG");
("FMSF",(-2144421),4710643,3658,"MG");
("FMSG",(-2280382),4781572,26,"MG");
("FMSK",(-2212417),4801861,33,"MG");
("FMSM",(-2120800),4835561,20,"MG");
("FMSR",(-2175903),4337254,16,"MG");
("FMST",(-2339165),4372456,29,"MG");
("FNBC",(-626246),1424355,1860,"AO");
("FNBG",(-1260436),1339808,118,"AO");
("FNCA",(-560829),1218853,66,"AO");
("FNDU",(-740768),2081269,2451,"CD");
("FNGI",(-1703731),1567000,3566,"AO");
("FNHU",(-1280666),1574851,5587,"AO");
("FNKU",(-1240858),1693662,5618,"AO");
("FNLB",(-1236529),1353313,10,"AO");
("FNLU",(-887688),1321394,243,"AO");
("FNLZ",(-912182),1804589,2904,"AO");
("FNMA",(-951962),1630400,3868,"AO");
("FNME",(-1465014),1770553,4469,"AO");
("FNMO",(-1526576),1213606,210,"AO");
("FNNG",(-774467),1528319,4105,"AO");
("FNPA",(-1072457),1376178,16,"AO");
("FNSA",(-967919),2041999,3584,"AO");
("FNSO",(-614647),1236401,15,"AO");
("FNSU",(-1117101),1384446,36,"AO");
("FNUB",(-1492509),1356136,5778,"AO");
("FNUE",(-1176544),1988697,4360,"AO");
("FNUG",(-761200),1502705,2720,"AO");
("FNWK",(-1143018),1509315,4324,"AO");
("FNXA",(-1676491),1496146,3635,"NA");
("FNZG",(-771900),2135025,2431,"AO");
("FOGK",(-117758),1243735,1070,"GA");
("FOGM",(-183722),1105490,295,"GA");
("FOGO",153572,1157801,2158,"GA");
("FOGQ",(-66719),1366668,1325,"GA");
("FOGR",(-71208),1023878,82,"GA");
("FOOB",207992,1148658,1969,"GA");
("FOOG",(-71969),875114,13,"GA");
("FOOH",(-156956),925759,33,"GA");
("FOOK",57495,1288404,1726,"GA");
("FOOL",47081,940635,39,"GA");
("FOON",(-164495),1342984,1450,"GA");
("FPPR",166872,741050,591,"ST");
("FPST",38053,670242,33,"ST");
("FQBR",(-1979364),3489651,33,"MZ");
("FQCH",(-1916210),3342802,2287,"MZ");
("FQIN",(-2387062),3540476,30,"MZ");
("FQLC",(-1327776),3525525,4505,"MZ");
("FQLU",(-1503986),4067167,33,"MZ");
("FQMA",(-2592485),3257015,145,"MZ");
("FQMD",(-1166307),3955908,2789,"TZ");
("FQMP",(-1137001),4035104,89,"MZ");
("FQMR",(-1321894),3754731,2480,"MZ");
("FQNC",(-1449950),4071133,410,"MZ");
("FQNP",(-1511181),3927511,1444,"MZ");
("FQPB",(-1298563),4052208,331,"MZ");
("FQQL",(-1784741),3686826,36,"MZ");
("FQSG",(-1559886),3277169,2904,"MZ");
("FQTT",(-1611614),3363986,525,"MZ");
("FQUG",(-1469706),3434928,4265,"MW");
("FQVL",(-2201110),3530976,46,"MZ");
("FSAL",(-700029),5272309,10,"SC");
("FSAS",(-973917),4650228,10,"KM");
("FSDA",(-541349),5329434,9,"SC");
("FSDR",(-569456),5364999,10,"SC");
("FSFA",(-1010701),5117281,10,"MG");
("FSIA",(-466663),5551080,10,"SC");
("FSPP",(-431385),5568817,10,"SC");
("FSSC",(-713085),5627310,10,"SC");
("FTTC",1384799,2083031,1788,"TD");
("FTTD",861771,1606676,1407,"TD");
("FTTJ",1212492,1502473,968,"TD");
("FTTY",1791043,1909982,771,"TD");
("FVBU",(-2001622),2861516,4359,"ZW");
("FVCN",(-1673461),3111693,4058,"ZW");
("FVCP",(-1775520),3091954,4845,"ZW");
("FVCZ",(-2100299),3157203,1421,"ZW");
("FVFA",(-1809224),2582858,3490,"ZW");
("FVHA",(-1794688),3107709,4887,"ZW");
("FVKB",(-1652075),2887730,1706,"ZW");
("FVMD",(-1676851),3155466,3240,"ZW");
("FVMT",(-1743242),3217931,3950,"ZW");
("FVMU",(-1899583),3262306,3410,"ZW");
("FVMV",(-2005480),3085893,3595,"ZW");
("FVOT",(-1698396),3266763,2450,"ZW");
("FVSH",(-2028510),3008486,3012,"ZW");
("FVSK",6193520,(-14717473),3289,"US");
("FVTL",(-1943118),2985044,4680,"ZW");
("FVWN",(-1863764),2700078,3543,"ZW");
("FWCL",(-1567726),3495871,2555,"MW");
("FWKA",(-994931),3388908,1765,"MW");
("FWKG",(-1301610),3346328,3470,"MW");
("FWKI",(-1377912),3376844,4035,"MW");
("FWLE",(-1396347),3369446,3722,"MW");
("FWUU",(-1143917),3400982,4115,"MW");
("FWZA",(-1538629),3537876,2650,"MW");
("FXMM",(-2946953),2755024,5348,"LS");
("FXMU",(-2930979),2750086,5105,"LS");
("FYAA",(-2799310),1759100,1500,"NA");
("FYAB",(-2680220),1964760,3300,"NA");
("FYAH",(-2129750),1539470,3330,"NA");
("FYAI",(-2182070),1561710,3316,"NA");
("FYAK",(-2845000),1745630,984,"ZA");
("FYAM",(-2363950),1933610,4100,"NA");
("FYAN",(-2412150),1911420,3900,"NA");
("FYAR",(-2246358),1497078,1905,"NA");
("FYAS",(-2666600),1628620,4720,"NA");
("FYAV",(-2811330),1982350,2400,"ZA");
("FYBA",(-2141670),1652900,5200,"NA");
("FYBE",(-2462270),1599100,2950,"NA");
("FYBG",(-1809390),2161930,3300,"NA");
("FYBJ",(-2386470),1798290,4140,"NA");
("FYBR",(-2699310),1776350,3000,"NA");
("FYBW",(-1778330),2258330,3300,"BW");
("FYBY",(-1961310),1541940,4300,"NA");
("FYCB",(-2395000),1446660,0,"NA");
("FYCC",(-2176600),1398710,10,"NA")].
(** openap/data/nav/airports.csv:2002-2501 *)
Definition apts04 : list apt := [
("FYCO",(-2383330),1883330,4100,"NA");
("FYCV",(-2173330),1851180,5207,"NA");
("FYDC",(-2043170),1412050,1800,"NA");
("FYEA",(-1980220),1393350,3270,"NA");
("FYED",(-1954250),1882930,3800,"NA");
("FYEF",(-1702790),1320600,2500,"NA");
("FYEH",(-1748560),1381520,3750,"NA");
("FYEK",(-2168480),1910920,4850,"NA");
("FYEM",(-2289080),1569590,3900,"NA");
("FYEN",(-1748507),1631401,3660,"NA");
("FYEO",(-2122690),1602220,4460,"NA");
("FYEP",(-1941890),1567430,3871,"NA");
("FYER",(-1929770),1454790,5584,"NA");
("FYET",(-2219090),1575140,3561,"NA");
("FYEU",(-1745280),1452350,3690,"NA");
("FYGC",(-2485750),1882180,3600,"NA");
("FYGF",(-1960483),1811583,4636,"NA");
("FYGI",(-2512720),1775820,3100,"NA");
("FYGK",(-2467060),1578330,2300,"NA");
("FYGL",(-2133000),1608210,4100,"NA");
("FYGM",(-2442050),1671310,4400,"NA");
("FYGN",(-2775750),1834440,3800,"NA");
("FYGO",(-2355240),1504000,1400,"NA");
("FYGP",(-2025000),1666660,4500,"NA");
("FYGT",(-2002810),1506000,3800,"NA");
("FYGW",(-2236670),1612990,3000,"NA");
("FYHA",(-2172220),1934350,4800,"NA");
("FYHC",(-2048780),1700730,5120,"NA");
("FYHH",(-2589170),1680980,4400,"NA");
("FYHI",(-1903640),1645740,3650,"NA");
("FYHL",(-1997500),1476910,3000,"NA");
("FYHM",(-2488920),1619180,4470,"NA");
("FYHN",(-2210680),1429620,120,"NA");
("FYHS",(-2763360),1769270,2316,"NA");
("FYHT",(-1933030),1436170,3700,"NA");
("FYHV",(-1737630),1225280,2045,"NA");
("FYIA",(-2409230),1795090,4000,"NA");
("FYIB",(-2295210),1764110,5100,"NA");
("FYIH",(-2111860),1588710,4300,"NA");
("FYII",(-1777430),2518050,3058,"BW");
("FYIM",(-1777540),2330090,3300,"NA");
("FYIR",(-2100000),1733330,4400,"NA");
("FYKB",(-2803330),1872960,3265,"NA");
("FYKC",(-2766150),1784000,3124,"NA");
("FYKE",(-2563410),1986130,3150,"NA");
("FYKG",(-1756890),1721780,3600,"NA");
("FYKI",(-1876950),1257360,800,"NA");
("FYKL",(-2361770),1786720,4400,"NA");
("FYKM",(-1763616),2416601,3144,"NA");
("FYKN",(-2086830),1663490,5357,"NA");
("FYKO",(-1970000),1771330,5200,"NA");
("FYKP",(-2012760),1700070,4900,"NA");
("FYKR",(-2004570),1673070,4500,"NA");
("FYKS",(-2595000),1911070,3150,"NA");
("FYKT",(-2654978),1810826,3506,"NA");
("FYKU",(-2065900),1386170,800,"NA");
("FYKW",(-1744250),1326990,3800,"NA");
("FYKX",(-2036670),1505190,3296,"NA");
("FYKY",(-2511670),1626660,4143,"NA");
("FYKZ",(-2332990),1836350,4400,"NA");
("FYLR",(-1897930),1785210,3900,"NA");
("FYLS",(-1811440),2338710,3180,"NA");
("FYLV",(-2350440),1878250,4100,"NA");
("FYLW",(-2499660),1854680,3700,"NA");
("FYLZ",(-2669168),1524140,457,"NA");
("FYMB",(-2462020),1469500,46,"NA");
("FYMD",(-1953030),1972850,4000,"NA");
("FYMF",(-1729520),1243310,2500,"NA");
("FYMG",(-2202480),1736270,5100,"NA");
("FYMI",(-2187320),1407550,43,"NA");
("FYML",(-2461214),1792680,3650,"NA");
("FYMP",(-2173070),1788530,5633,"NA");
("FYMR",(-2109320),1622580,4850,"NA");
("FYMS",(-2469130),1985390,3580,"NA");
("FYMT",(-1873460),1857720,3800,"NA");
("FYMU",(-1882440),1713810,3600,"NA");
("FYMW",(-1939730),1274120,30,"NA");
("FYNB",(-2204510),1617800,4101,"NA");
("FYND",(-2870190),1761730,6200,"ZA");
("FYNG",(-1933140),1590720,3775,"NA");
("FYNL",(-1798100),2330480,3181,"NA");
("FYNN",(-2399210),1592880,3500,"NA");
("FYNP",(-1776300),1844770,3700,"NA");
("FYNR",(-2445680),1622240,4000,"NA");
("FYNS",(-2689330),1860000,3041,"NA");
("FYNT",(-2604100),1622260,4590,"NA");
("FYNU",(-1956550),1572840,4020,"NA");
("FYOA",(-1788381),1593976,3599,"NA");
("FYOB",(-2121670),1629470,4200,"NA");
("FYOD",(-2216890),1629550,2210,"NA");
("FYOE",(-1800000),2229310,3400,"BW");
("FYOF",(-2159780),1786360,5345,"NA");
("FYOG",(-2859194),1644667,14,"NA");
("FYOH",(-1788390),1506660,3600,"NA");
("FYOJ",(-2006816),1612011,4343,"NA");
("FYOK",(-2060250),1746190,4400,"NA");
("FYOM",(-2141750),1592590,3983,"NA");
("FYON",(-2200200),1688070,4900,"NA");
("FYOR",(-2175560),1648990,4930,"NA");
("FYOS",(-1778410),1569220,3600,"NA");
("FYOT",(-2396670),1970000,4000,"NA");
("FYOV",(-1963180),1731230,4658,"NA");
("FYOZ",(-2063330),1705990,4900,"NA");
("FYPA",(-2229860),1706330,4700,"NA");
("FYPO",(-2363480),1773150,4265,"NA");
("FYPR",(-2161080),1770490,5291,"NA");
("FYPU",(-1875960),1294570,886,"NA");
("FYPW",(-1987570),1393780,3200,"NA");
("FYRC",(-1742063),1437186,3765,"NA");
("FYRF",(-1976310),1785590,4955,"NA");
("FYRH",(-2329460),1701170,4950,"NA");
("FYRO",(-2061430),1718390,4714,"NA");
("FYRP",(-2796074),1674922,1274,"NA");
("FYRR",(-2054000),1442930,2100,"NA");
("FYRS",(-2328660),1610100,3832,"NA");
("FYRU",(-1796115),1970442,3627,"NA");
("FYRW",(-2496170),1600480,3168,"NA");
("FYRZ",(-2354100),1583480,2800,"NA");
("FYSC",(-2572080),1637430,4000,"NA");
("FYSE",(-2450920),1987010,3600,"NA");
("FYSF",(-1910600),1364420,1800,"NA");
("FYSG",(-1800000),2136160,3400,"NA");
("FYSI",(-1798050),2052890,3455,"NA");
("FYSL",(-2480910),1588380,2854,"NA");
("FYSN",(-2210960),1697000,4900,"NA");
("FYSO",(-2388270),1601280,3800,"NA");
("FYSP",(-2433330),1843330,4000,"NA");
("FYSR",(-1876770),1238140,500,"NA");
("FYSS",(-2450420),1575960,2500,"NA");
("FYST",(-2399670),1854790,4000,"NA");
("FYSU",(-2448600),1581070,2500,"NA");
("FYSV",(-2462930),1593210,2800,"NA");
("FYSW",(-2350000),1604990,3100,"NA");
("FYTB",(-2239250),1579430,3100,"NA");
("FYTE",(-1996480),1302120,23,"NA");
("FYTF",(-2054290),1435170,1800,"NA");
("FYTJ",(-2089620),1554850,2800,"NA");
("FYTL",(-2184300),2072460,4100,"BW");
("FYTM",(-1925981),1772560,4353,"NA");
("FYTN",(-2116220),1875000,4800,"NA");
("FYTO",(-2022000),1319940,100,"NA");
("FYTR",(-2545630),1943830,3500,"NA");
("FYTS",(-1775190),1488160,3628,"NA");
("FYTT",(-2524790),1005920,3400,"NA");
("FYTW",(-2076330),1679970,4700,"NA");
("FYTZ",(-2192980),1712880,4230,"NA");
("FYUE",(-1775000),1583330,3600,"NA");
("FYUK",(-2198840),1560250,2954,"NA");
("FYUS",(-2122650),1486370,2700,"NA");
("FYVA",(-2116670),1691660,4500,"NA");
("FYVK",(-2696780),1751530,2854,"NA");
("FYWB",(-2298293),1463547,299,"NA");
("FYWD",(-2510870),1599040,3400,"NA");
("FYWE",(-2261523),1708067,5575,"NA");
("FYWH",(-2248976),1744954,5640,"NA");
("FYWI",(-2270520),1847960,4688,"NA");
("FYWK",(-2243130),1446670,20,"NA");
("FYWL",(-2033700),1752620,4547,"NA");
("FYWM",(-2845000),1871340,2500,"NA");
("FYZR",(-2452300),1629300,4480,"NA");
("FZAA",(-439717),1542672,1027,"CD");
("FZAB",(-432918),1532017,915,"CD");
("FZAG",(-593676),1234865,89,"AO");
("FZAI",(-592639),1243842,394,"AO");
("FZBO",(-330959),1737572,1053,"CD");
("FZCA",(-504069),1878051,1572,"CD");
("FZEA",3247,1828756,1040,"CD");
("FZFD",424890,2096151,1509,"CD");
("FZFK",323731,1976248,1378,"CD");
("FZFP",415182,2166058,1801,"CF");
("FZGA",216404,2148958,1509,"CD");
("FZIA",51868,2514516,1289,"CD");
("FZIC",49067,2532508,1417,"CD");
("FZJH",283488,2757959,2438,"CD");
("FZKA",156665,3021238,4045,"CD");
("FZKJ",281557,2478474,1378,"CD");
("FZMA",(-230033),2880637,5643,"CD");
("FZNA",(-166184),2923757,5089,"CD");
("FZNI",(-72390),2969621,3248,"UG");
("FZOA",(-290924),2591466,1630,"CD");
("FZQA",(-1159711),2751728,4295,"CD");
("FZQM",(-1076440),2549786,5007,"CD");
("FZRF",(-587974),2924264,2569,"CD");
("FZSA",(-863347),2525632,3543,"CD");
("FZUA",(-589704),2245971,2139,"CD");
("FZWA",(-611271),2356613,2221,"CD");
("GABS",1252683,(-796035),1246,"ML");
("GAGO",1624321,(-1582),870,"ML");
("GAKY",1448010,(-1141175),164,"ML");
("GAMB",1450497,(-408823),906,"ML");
("GASO",1159562,(-580664),1301,"ML");
("GATB",1672688,(-301675),863,"ML");
("GATS",2023509,96875,1621,"ML");
("GBYD",1334855,(-1666481),95,"GM");
("GCFV",2844189,(-1386412),85,"ES");
("GCGM",2802859,(-1722214),715,"ES");
("GCHI",2781985,(-1788997),337,"ES");
("GCLA",2861656,(-1775542),107,"ES");
("GCLB",2778106,(-1551118),0,"ES");
("GCLP",2791887,(-1539234),77,"ES");
("GCRR",2893582,(-1361082),0,"ES");
("GCTS",2803920,(-1658764),209,"ES");
("GCXO",2848806,(-1635782),2076,"ES");
("GEML",3528586,(-296118),156,"ES");
("GFLL",862069,(-1320940),84,"SL");
("GGCF",1128242,(-1518717),65,"GW");
("GGOV",1187683,(-1565437),129,"GW");
("GLMR",628254,(-1076394),25,"LR");
("GLRB",622083,(-1037013),31,"LR");
("GMAA",3038310,(-956137),89,"MA");
("GMAD",3032302,(-942820),250,"MA");
("GMAT",2844022,(-1116612),653,"MA");
("GMFF",3392739,(-499521),1900,"MA");
("GMFI",3349674,(-515779),5459,"MA");
("GMFK",3195658,(-441493),3428,"MA");
("GMFM",3387224,(-552543),1890,"MA");
("GMFO",3477993,(-193784),1535,"MA");
("GMMA",2674365,(-1169187),350,"EH");
("GMMB",3366624,(-723180),627,"MA");
("GMME",3403799,(-676139),276,"MA");
("GMMH",2370579,(-1593769),36,"EH");
("GMMI",3140586,(-968603),384,"MA");
("GMML",2713021,(-1323539),207,"EH");
("GMMN",3338404,(-759352),656,"MA");
("GMMW",3498597,(-304427),574,"MA");
("GMMX",3160837,(-805254),1545,"MA");
("GMMY",3429645,(-661196),16,"MA");
("GMMZ",3094516,(-692344),3782,"MA");
("GMSL",3422504,(-606764),179,"MA");
("GMTA",3518849,(-384132),95,"MA");
("GMTN",3558829,(-533036),10,"MA");
("GMTT",3573327,(-594031),62,"MA");
("GODK",1289250,(-1497133),33,"SN");
("GOGG",1255536,(-1628889),75,"SN");
("GOGS",1239819,(-1675081),52,"SN");
("GOOK",1414231,(-1605703),26,"SN");
("GOOY",1475711,(-1748094),85,"SN");
("GOSS",1605927,(-1646432),9,"SN");
("GOTB",1484328,(-1247529),98,"SN");
("GOTK",1257420,(-1222839),584,"SN");
("GOTT",1373094,(-1366013),161,"SN");
("GQNA",1670519,(-964190),951,"MR");
("GQND",1856686,(-1143027),1316,"MR");
("GQNF",1658657,(-1141275),423,"MR");
("GQNI",1662107,(-732639),758,"MR");
("GQNK",1615382,(-1351770),75,"MR");
("GQNN",1808706,(-1595680),7,"MR");
("GQNS",1517568,(-1221346),262,"MR");
("GQPA",2049504,(-1305032),758,"MR");
("GQPP",2092232,(-1703282),16,"MR");
("GQPT",2522634,(-1158832),1194,"MA");
("GROM",6070898,3012915,230,"RU");
("GUCY",956721,(-1362329),72,"GN");
("GUFA",1034565,(-1357476),499,"GN");
("GUFH",1003415,(-1078056),1476,"GN");
("GULB",1132034,(-1229395),3396,"GN");
("GVAC",1672133,(-2294883),177,"CV");
("GVBA",1613124,(-2289053),69,"CV");
("GVMA",1515053,(-2321386),36,"CV");
("GVNP",1493189,(-2348850),230,"CV");
("GVSN",1658195,(-2428371),669,"CV");
("GVSV",1682842,(-2506214),66,"CV");
("HAAB",897226,3878351,7656,"ET");
("HAAL",900640,3872146,7749,"ET");
("HAAM",602869,3758369,3895,"ET");
("HAAX",1415695,3876927,6915,"ET");
("HABD",1159858,3731197,5976,"ET");
("HADR",963576,4184845,3829,"ET");
("HAGM",814002,3456324,1771,"ET");
("HAGN",1253220,3743176,6541,"ET");
("HAGO",592652,4357169,834,"SO");
("HAJM",767123,3680920,5587,"ET");
("HALL",1197619,3896886,6423,"ET");
("HAMK",1347341,3951798,7406,"ET");
("HASO",1002224,3457819,5120,"ET");
("HBBA",(-330799),2931601,2582,"BI");
("HCMH",951185,4407952,4423,"SO");
("HCMI",1037638,4492729,30,"SO");
("HCMK",(-38958),4244786,49,"SO");
("HDAM",1154753,4314511,49,"DJ");
("HEAL",3093475,2844756,143,"EG");
("HEAR",3108576,3382968,121,"EG");
("HEAT",2705523,3100030,772,"EG");
("HEAX",3117466,2993813,(-6),"EG");
("HEAZ",3010194,3136004,300,"EG");
("HEBA",3093037,2968509,177,"EG");
("HEBL",2238768,3160443,616,"EG");
("HEBS",2918200,3101628,108,"EG");
("HECA",3009969,3139823,382,"EG");
("HECW",3013218,3091073,550,"EG");
("HEDK",2542124,2899669,613,"EG");
("HEEM",3007180,3118260,59,"EG");
("HEGN",2719576,3379425,52,"EG");
("HEGO",2737381,3366581,56,"EG");
("HEGR",3107048,3413714,324,"EG");
("HEKG",2548943,3059066,192,"EG");
("HELX",2565858,3270067,294,"EG");
("HEMA",2556882,3457619,251,"EG");
("HEMM",3132202,2721489,94,"EG");
("HEOC",2980321,3082157,807,"EG");
("HEOW",2257004,2871413,859,"EG");
("HEPS",3128228,3222819,8,"EG");
("HESC",2869460,3406104,4368,"EG");
("HESH",2796850,3438263,143,"EG");
("HESN",2397952,3281732,662,"EG");
("HETB",2957543,3476316,2415,"IL");
("HETR",2821230,3363069,115,"EG");
("HHAS",1528360,3889403,7660,"ER");
("HHMS",1566593,3935427,194,"ER");
("HHSB",1307977,4263100,46,"ER");
("HKEL",40091,3522129,6941,"KE");
("HKJK",(-132774),3691612,5330,"KE");
("HKKG",27046,3478270,5020,"KE");
("HKKI",(-9041),3472105,3796,"KE");
("HKKT",96691,3495436,6070,"KE");
("HKLK",420435,3433969,2074,"UG");
("HKLO",312139,3560421,1715,"KE");
("HKLU",(-224634),4091002,20,"KE");
("HKMO",(-403952),3959167,200,"KE");
("HKNV",(-78303),3643410,6380,"KE");
("HKNW",(-131888),3681191,5546,"KE");
("HKRE",(-128320),3685308,5380,"KE");
("HKWJ",174374,4008461,770,"KE");
("HLFL",2880474,2207810,161,"LY");
("HLGD",3106775,1658983,267,"LY");
("HLGL",2863930,2143783,325,"LY");
("HLGT",2515158,1014167,2296,"LY");
("HLKF",2416318,2330817,1367,"LY");
("HLLB",3211158,2026149,433,"LY");
("HLLM",3289522,1326950,36,"LY");
("HLLQ",3279448,2193411,2157,"LY");
("HLLS",2700447,1445138,1427,"LY");
("HLLT",3266309,1312876,263,"LY");
("HLMB",3038647,1957006,50,"LY");
("HLNF",3051190,1852731,42,"LY");
("HLON",2911545,1595868,919,"LY");
("HLRA",2947832,1792634,1050,"LY");
("HLTD",3013858,968733,1122,"LY");
("HLZA",2859447,1728419,1085,"LY");
("HLZW",3294817,1200715,0,"LY");
("HRYG",(-168173),2925810,5082,"RW");
("HRYR",(-196590),3012394,4859,"RW");
("HRZA",(-246875),2890600,5192,"RW");
("HSDN",1916736,3042877,773,"SD");
("HSDZ",1179702,3433474,1582,"SD");
("HSFS",1360674,2531396,2393,"SD");
("HSKA",1537542,3632380,1671,"SD");
("HSLI",1113273,2969074,1848,"SD");
("HSNN",1204324,2494701,2106,"SD");
("HSOB",1313979,3023075,1927,"SD");
("HSPN",1944464,3723149,135,"SD");
("HSSJ",487902,3159285,1513,"SS");
("HSSM",955250,3164589,1291,"SS");
("HSSS",1560296,3255303,1265,"SD");
("HTAR",(-336689),3661822,4550,"TZ");
("HTDA",(-688286),3919779,182,"TZ");
("HTDO",(-617020),3574374,3637,"TZ");
("HTIR",(-767592),3575039,4678,"TZ");
("HTKJ",(-343016),3705829,2932,"TZ");
("HTLM",(-337364),3581344,4150,"TZ");
("HTMT",(-1034924),4018108,371,"TZ");
("HTMW",(-243823),3292012,3763,"TZ");
("HTPE",(-526365),3980881,80,"TZ");
("HTTG",(-509507),3906614,129,"TZ");
("HTZA",(-621098),3922377,54,"TZ");
("HUAJ",333938,3175963,2611,"UG");
("HUAR",304162,3091266,0,"UG");
("HUEN",5560,3243593,3782,"UG");
("HUGU",281897,3226711,3510,"UG");
("HUJI",45754,3318775,3871,"UG");
("HUKF",232273,3149037,2365,"UG");
("HUKI",(-128907),2972049,6200,"UG");
("HUKJ",20065,3254976,0,"UG");
("HUKK",50073,3328277,3937,"UG");
("HUKO",371650,3374281,4068,"UG");
("HUKS",19107,3010299,3146,"UG");
("HULI",224837,3290558,3579,"UG");
("HUMA",(-55719),3060681,4599,"UG");
("HUMI",174788,3173585,0,"UG");
("HUMO",250946,3458889,4133,"UG");
("HUMW",(-19654),2988866,3215,"UG");
("HUPA",219822,3154882,2395,"UG");
("HUSO",172232,3361644,3641,"UG");
("HUTO",67516,3416828,3838,"UG");
("KAAA",4015331,(-8933996),597,"US");
("KAAF",2973291,(-8503489),20,"US");
("KAAO",3775589,(-9721986),1421,"US");
("KAAP",2972880,(-9558930),80,"US");
("KAAS",3735384,(-8531601),921,"US");
("KAAT",4148782,(-12056982),4374,"US");
("KABE",4064698,(-7545063),394,"US");
("KABI",3242808,(-9968492),1791,"US");
("KABQ",3504435,(-10662159),5355,"US");
("KABR",4545524,(-9842804),1302,"US");
("KABY",3152959,(-8419971),197,"US");
("KACB",4498203,(-8520125),623,"US");
("KACJ",3210438,(-8419551),471,"US");
("KACK",4124694,(-7007252),48,"US");
("KACP",3075737,(-9268843),107,"US");
("KACQ",4407766,(-9355576),1126,"US");
("KACT",3160353,(-9722996),516,"US");
("KACV",4098566,(-12411337),221,"US");
("KACY",3946426,(-7459101),75,"US");
("KACZ",3471741,(-7801026),39,"US");
("KADC",4645552,(-9521327),1369,"US");
("KADG",4186161,(-8408473),798,"US");
("KADH",3481327,(-9667198),1016,"US");
("KADM",3430603,(-9702322),762,"US");
("KADS",3297784,(-9684051),644,"US");
("KADT",3984825,(-10104433),2991,"US");
("KADU",4170542,(-9492380),1287,"US");
("KADW",3879774,(-7686357),280,"US");
("KAEG",3513875,(-10680918),5837,"US");
("KAEJ",3882500,(-10612516),7946,"US");
("KAEL",4368739,(-9336886),1259,"US");
("KAEX",3133788,(-9255923),89,"US");
("KAFF",3897778,(-10482611),6572,"US");
("KAFJ",4013589,(-8029910),1184,"US");
("KAFK",4061232,(-9586961),1162,"US");
("KAFN",4280861,(-7200596),1040,"US");
("KAFO",4271840,(-11094212),6221,"US");
("KAFP",3502746,(-8008106),300,"US");
("KAFW",3300164,(-9732075),722,"US");
("KAGC",4035428,(-7994110),1252,"US");
("KAGO",3323435,(-9321674),317,"US");
("KAGR",2764086,(-8135146),68,"US");
("KAGS",3338239,(-8197088),144,"US");
("KAGZ",4306361,(-9830361),1475,"US");
("KAHC",4026769,(-12016532),3934,"US");
("KAHH",4528663,(-9237561),1088,"US");
("KAHN",3394891,(-8333821),808,"US");
("KAHQ",4123668,(-9659675),1224,"US");
("KAIA",4206001,(-10281858),3931,"US");
("KAIB",3823551,(-10857065),5940,"US");
("KAID",4011194,(-8562294),919,"US");
("KAIG",4515961,(-8911052),1521,"US");
("KAIK",3364607,(-8169578),528,"US");
("KAIO",4141100,(-9505281),1182,"US");
("KAIT",4655601,(-9367646),1205,"US");
("KAIV",3310322,(-8820493),150,"US");
("KAIZ",3808892,(-9255628),869,"US");
("KAJG",3861089,(-8773389),429,"US");
("KAJO",3389759,(-11760769),533,"US");
("KAJR",3449581,(-8356437),1447,"US");
("KAJZ",3878068,(-10807016),5193,"US");
("KAKH",3519807,(-8115287),797,"US");
("KAKO",4018034,(-10323295),4714,"US");
("KAKQ",3698152,(-7700326),113,"US");
("KAKR",4103334,(-8147782),1067,"US");
("KALB",4273756,(-7380425),285,"US");
("KALI",2774532,(-9803389),178,"US");
("KALM",3283320,(-10599873),4200,"US");
("KALN",3889524,(-9005497),544,"US");
("KALO",4256604,(-9241196),873,"US");
("KALS",3742518,(-10587561),7539,"US");
("KALW",4608532,(-11829168),1205,"US");
("KALX",3292219,(-8596334),686,"US");
("KAMA",3520512,(-10173270),3607,"US");
("KAMG",3154206,(-8251046),200,"US");
("KAMN",4332302,(-8469602),754,"US");
("KAMT",3884783,(-8357094),896,"US");
("KAMW",4198270,(-9362476),955,"US");
("KANB",3358179,(-8586672),612,"US");
("KAND",3448859,(-8271591),782,"US");
("KANE",4515169,(-9320990),912,"US");
("KANJ",4648436,(-8437564),716,"US");
("KANK",3853494,(-10606074),7523,"US");
("KANP",3894391,(-7657259),34,"US");
("KANQ",4163546,(-8508955),995,"US");
("KANW",4258567,(-9999666),2589,"US");
("KANY",3716370,(-9807904),1340,"US");
("KAOC",4360046,(-11334597),5332,"US");
("KAOH",4070694,(-8403595),975,"US");
("KAOO",4028873,(-7832314),1504,"US");
("KAOV",3697557,(-9268616),1311,"US");
("KAPA",3958414,(-10485147),5883,"US");
("KAPC",3822321,(-12227796),35,"US");
("KAPF",2614722,(-8178139),8,"US");
("KAPG",3945581,(-7617504),57,"US");
("KAPH",3806666,(-7732156),220,"US");
("KAPN",4506494,(-8356137),689,"US");
("KAPT",3505689,(-8558892),641,"US");
("KAPV",3458755,(-11718254),3062,"US");
("KAQO",3078951,(-9866212),1102,"US");
("KAQP",4523029,(-9600857),1020,"US");
("KAQR",3440248,(-9614796),590,"US");
("KAQW",4269778,(-7317778),654,"US");
("KARA",3004849,(-9188663),24,"US");
("KARB",4222024,(-8375012),839,"US");
("KARG",3611357,(-9093366),273,"US");
("KARM",2926027,(-9615823),100,"US");
("KARR",4177015,(-8848537),712,"US");
("KART",4398784,(-7602994),325,"US");
("KARV",4593773,(-8973302),1630,"US");
("KASD",3035188,(-8982086),27,"US");
("KASE",3923217,(-10687315),7820,"US");
("KASG",3618362,(-9411814),1353,"US");
("KASH",4278583,(-7152339),199,"US");
("KASJ",3629134,(-7717091),68,"US");
("KASL",3252590,(-9431096),357,"US")].
(** openap/data/nav/airports.csv:2502-3001 *)
Definition apts05 : list apt := [
("KASN",3356320,(-8605656),528,"US");
("KAST",4615983,(-12388975),15,"US");
("KASW",4127241,(-8584623),850,"US");
("KASX",4654055,(-9092465),826,"US");
("KASY",4602837,(-9935696),2032,"US");
("KATA",3309957,(-9419967),280,"US");
("KATL",3363470,(-8444799),1026,"US");
("KATS",3284604,(-10447509),3541,"US");
("KATW",4424893,(-8852618),918,"US");
("KATY",4492221,(-9716930),1748,"US");
("KAUG",4432766,(-6980368),352,"US");
("KAUH",4089991,(-9799604),1804,"US");
("KAUM",4367051,(-9293443),1233,"US");
("KAUN",3895417,(-12108817),1536,"US");
("KAUO",3262020,(-8543604),777,"US");
("KAUS",3021361,(-9767936),542,"US");
("KAUW",4493022,(-8963839),1201,"US");
("KAVC",3668142,(-7805411),442,"US");
("KAVK",3678073,(-9866902),1474,"US");
("KAVL",3544650,(-8254644),2165,"US");
("KAVO",2758448,(-8153509),156,"US");
("KAVP",4132870,(-7573153),962,"US");
("KAVQ",3241767,(-11122621),2031,"US");
("KAVX",3340219,(-11842008),1601,"US");
("KAWG",4127960,(-9167628),754,"US");
("KAWM",3514330,(-9023435),212,"US");
("KAWO",4816170,(-12216883),465,"US");
("KAXA",4308154,(-9427838),1219,"US");
("KAXH",2950664,(-9548475),68,"US");
("KAXN",4587163,(-9540207),1425,"US");
("KAXQ",4122181,(-7944625),1458,"US");
("KAXS",3470634,(-9933810),1433,"US");
("KAXV",4049180,(-8430769),912,"US");
("KAXX",3643421,(-10528944),8380,"US");
("KAYS",3125545,(-8239838),142,"US");
("KAYX",3538544,(-8609085),1065,"US");
("KAZC",3696470,(-11302389),4874,"US");
("KAZE",3188945,(-8265199),255,"US");
("KAZO",4224246,(-8555197),874,"US");
("KAZU",3527349,(-9423251),785,"US");
("KBAB",3915175,(-12144339),113,"US");
("KBAD",3251615,(-9367176),166,"US");
("KBAF",4214530,(-7271882),271,"US");
("KBAK",3925524,(-8590488),656,"US");
("KBAM",4060529,(-11688222),4532,"US");
("KBAX",4378503,(-8298756),766,"US");
("KBAZ",2970952,(-9804363),650,"US");
("KBBB",4533634,(-9565519),1039,"US");
("KBBD",3118530,(-9932461),1827,"US");
("KBBG",3654012,(-9320751),1303,"US");
("KBBP",3461797,(-7974133),147,"US");
("KBBW",4144139,(-9964623),2547,"US");
("KBCB",3721049,(-8041475),2132,"US");
("KBCE",3769938,(-11215475),7590,"US");
("KBCK",4424969,(-9086394),836,"US");
("KBCT",2637231,(-8011439),13,"US");
("KBDE",4873231,(-9462199),1086,"US");
("KBDF",4123031,(-8962036),808,"US");
("KBDG",3759128,(-10948328),5865,"US");
("KBDH",4512285,(-9513826),1126,"US");
("KBDJ",4613403,(-8965166),1665,"US");
("KBDL",4193201,(-7269658),172,"US");
("KBDN",4410169,(-12120021),3456,"US");
("KBDQ",3513342,(-9272005),321,"US");
("KBDR",4116624,(-7313496),9,"US");
("KBDU",4003972,(-10523473),5288,"US");
("KBEA",2836597,(-9779637),268,"US");
("KBEC",3770528,(-9721246),1408,"US");
("KBED",4247183,(-7130035),133,"US");
("KBEH",4212794,(-8643680),643,"US");
("KBFA",4517283,(-8492594),719,"US");
("KBFD",4180932,(-7864882),2143,"US");
("KBFE",3316578,(-10219696),3264,"US");
("KBFF",4188229,(-10360496),3967,"US");
("KBFI",4753799,(-12230746),20,"US");
("KBFK",3686917,(-9961861),1822,"US");
("KBFL",3544635,(-11907128),507,"US");
("KBFM",3063308,(-8807994),26,"US");
("KBFR",3884558,(-8645273),728,"US");
("KBFW",4724765,(-9142166),1089,"US");
("KBGD",3571001,(-10139374),3055,"US");
("KBGE",3097282,(-8464330),141,"US");
("KBGF",3518440,(-8606592),979,"US");
("KBGM",4221925,(-7598684),1636,"US");
("KBGR",4481837,(-6884393),192,"US");
("KBHB",4444387,(-6836729),83,"US");
("KBHC",3171205,(-8240155),201,"US");
("KBHK",4635260,(-10426597),2973,"US");
("KBHM",3355480,(-8677155),643,"US");
("KBID",4116776,(-7158214),108,"US");
("KBIE",4030984,(-9675378),1324,"US");
("KBIF",3183610,(-10639517),3948,"US");
("KBIH",3738014,(-11837334),4124,"US");
("KBIJ",3139261,(-8490151),214,"US");
("KBIL",4581273,(-10855482),3652,"US");
("KBIS",4678395,(-10076179),1661,"US");
("KBIV",4274131,(-8611882),698,"US");
("KBIX",3040188,(-8893145),33,"US");
("KBJC",3991529,(-10512843),5670,"US");
("KBJI",4751598,(-9494304),1390,"US");
("KBJJ",4087484,(-8189765),1136,"US");
("KBKD",3272459,(-9889099),1284,"US");
("KBKE",4484227,(-11781341),3373,"US");
("KBKF",3971498,(-10476142),5662,"US");
("KBKL",4151385,(-8169266),583,"US");
("KBKS",2721462,(-9812013),112,"US");
("KBKT",3706869,(-7795703),439,"US");
("KBKV",2847591,(-8247061),77,"US");
("KBKW",3778207,(-8112578),2504,"US");
("KBKX",4430973,(-9682172),1648,"US");
("KBLF",3729094,(-8121313),2857,"US");
("KBLH",3361660,(-11472773),399,"US");
("KBLI",4880187,(-12253757),170,"US");
("KBLM",4019462,(-7413568),159,"US");
("KBLU",3927938,(-12071101),5284,"US");
("KBLV",3855620,(-8983350),459,"US");
("KBMC",4156269,(-11206234),4229,"US");
("KBMG",3915820,(-8661814),846,"US");
("KBMI",4046405,(-8891603),871,"US");
("KBML",4458126,(-7117909),1161,"US");
("KBMQ",3073232,(-9824082),1284,"US");
("KBMT",3007439,(-9422052),32,"US");
("KBNA",3614128,(-8669535),598,"US");
("KBNG",3392261,(-11685956),2219,"US");
("KBNL",3325259,(-8139834),246,"US");
("KBNO",4359698,(-11896421),4148,"US");
("KBNW",4205434,(-9385083),1160,"US");
("KBOI",4357021,(-11623691),2871,"US");
("KBOK",4207706,(-12429297),459,"US");
("KBOS",4237428,(-7101793),20,"US");
("KBOW",2794475,(-8179346),125,"US");
("KBPG",3222682,(-10152086),2573,"US");
("KBPI",4259294,(-11011789),6990,"US");
("KBPK",3636469,(-9247720),928,"US");
("KBPP",4619078,(-10343583),2958,"US");
("KBPT",2995529,(-9402778),15,"US");
("KBQK",3125422,(-8147813),26,"US");
("KBQP",3276136,(-9188240),167,"US");
("KBQR",4292137,(-7861811),750,"US");
("KBRD",4641758,(-9413612),1226,"US");
("KBRL",4078878,(-9112394),698,"US");
("KBRO",2591283,(-9743131),21,"US");
("KBRY",3780793,(-8550281),669,"US");
("KBST",4441316,(-6901739),198,"US");
("KBTA",4142299,(-9611695),1325,"US");
("KBTF",4087454,(-11192755),4234,"US");
("KBTL",4229573,(-8526598),952,"US");
("KBTM",4596693,(-11250120),5550,"US");
("KBTN",4581864,(-9774816),1318,"US");
("KBTP",4077455,(-7995933),1248,"US");
("KBTR",3054073,(-9116090),70,"US");
("KBTV",4448062,(-7316599),334,"US");
("KBTY",3686843,(-11678745),3170,"US");
("KBUB",4178081,(-9915186),2182,"US");
("KBUF",4293120,(-7874168),724,"US");
("KBUM",3829526,(-9433990),892,"US");
("KBUR",3419791,(-11836927),778,"US");
("KBUU",4269353,(-8831278),779,"US");
("KBUY",3604433,(-7948156),617,"US");
("KBVI",4077288,(-8039954),1253,"US");
("KBVN",4173313,(-9805874),1806,"US");
("KBVO",3677098,(-9601136),713,"US");
("KBVS",4847784,(-12243093),144,"US");
("KBVU",3594902,(-11486871),2201,"US");
("KBVX",3572307,(-9166112),464,"US");
("KBVY",4257966,(-7092550),107,"US");
("KBWC",3299292,(-11552406),(-129),"US");
("KBWD",3180189,(-9895508),1387,"US");
("KBWG",3695868,(-8642503),547,"US");
("KBWI",3917479,(-7669033),146,"US");
("KBWL",3679915,(-9731720),1054,"US");
("KBWP",4625060,(-9661118),968,"US");
("KBXA",3081893,(-8986466),119,"US");
("KBXG",3303949,(-8200892),302,"US");
("KBXK",3343009,(-11268586),1021,"US");
("KBXM",4388135,(-6993879),75,"US");
("KBYG",4438732,(-10672974),4968,"US");
("KBYH",3598027,(-8994396),254,"US");
("KBYI",4253765,(-11377405),4150,"US");
("KBYS",3527483,(-11664300),2350,"US");
("KBYY",2897809,(-9586924),45,"US");
("KBZN",4578809,(-11116649),4471,"US");
("KCAD",4427288,(-8543085),1307,"US");
("KCAE",3394415,(-8113775),236,"US");
("KCAG",4049427,(-10753166),6193,"US");
("KCAK",4090717,(-8144135),1228,"US");
("KCAO",3643876,(-10315793),4965,"US");
("KCAR",4686824,(-6801494),626,"US");
("KCAV",4274453,(-9376281),1162,"US");
("KCBE",3961107,(-7876476),775,"US");
("KCBF",4126860,(-9575745),1253,"US");
("KCBG",4556273,(-9326653),945,"US");
("KCBK",3943526,(-10104829),3186,"US");
("KCBM",3365539,(-8846088),219,"US");
("KCCA",3529931,(-9432045),470,"US");
("KCCB",3410972,(-11769334),1444,"US");
("KCCO",3331731,(-8477559),970,"US");
("KCCR",3798195,(-12206133),26,"US");
("KCCY",4307706,(-9261757),1125,"US");
("KCDA",4456458,(-7201936),1187,"US");
("KCDC",3769061,(-11310781),5622,"US");
("KCDH",3363162,(-9276171),130,"US");
("KCDI",3997010,(-8158177),799,"US");
("KCDK",2913558,(-8305259),7,"US");
("KCDN",3427919,(-8057138),302,"US");
("KCDR",4283298,(-10310035),3297,"US");
("KCDS",3444026,(-10028553),1954,"US");
("KCDW",4086776,(-7428632),172,"US");
("KCEA",3765391,(-9725059),1378,"US");
("KCEC",4178498,(-12424155),57,"US");
("KCEF",4217746,(-7254801),241,"US");
("KCEK",4062368,(-9692485),1499,"US");
("KCEU",3466963,(-8289359),892,"US");
("KCEV",3970745,(-8513071),867,"US");
("KCEW",3078970,(-8652411),213,"US");
("KCEY",3665910,(-8838086),576,"US");
("KCEZ",3729560,(-10863625),5918,"US");
("KCFD",3072053,(-9633437),367,"US");
("KCFJ",3997111,(-8692533),799,"US");
("KCFS",4345405,(-8345374),701,"US");
("KCFT",3295195,(-10921833),3811,"US");
("KCFV",3710324,(-9557438),754,"US");
("KCGC",2886733,(-8257842),9,"US");
("KCGE",3854429,(-7603502),19,"US");
("KCGF",4156058,(-8149344),879,"US");
("KCGI",3722738,(-8958174),342,"US");
("KCGS",3898326,(-7692534),48,"US");
("KCGX",4186425,(-8760835),593,"US");
("KCGZ",3295132,(-11177415),1464,"US");
("KCHA",3502265,(-8520750),683,"US");
("KCHD",3326573,(-11181416),1243,"US");
("KCHK",3510342,(-9796921),1150,"US");
("KCHN",2752041,(-8188047),106,"US");
("KCHO",3813100,(-7845677),639,"US");
("KCHQ",3684654,(-8935963),313,"US");
("KCHS",3291302,(-8004812),45,"US");
("KCHT",3978645,(-9349983),783,"US");
("KCHU",4359977,(-9150862),1179,"US");
("KCIC",3980338,(-12186412),238,"US");
("KCID",4188465,(-9172917),869,"US");
("KCII",4783700,(-11217358),3947,"US");
("KCIN",4205167,(-9479560),1204,"US");
("KCIR",3706881,(-8922598),321,"US");
("KCIU",4625635,(-8447810),800,"US");
("KCJJ",4336893,(-9213549),1279,"US");
("KCJR",3851943,(-7786376),316,"US");
("KCKA",3675482,(-9812265),1202,"US");
("KCKB",3928779,(-8023288),1217,"US");
("KCKC",4783881,(-9039147),1799,"US");
("KCKF",3199397,(-8377801),310,"US");
("KCKI",3372184,(-7986307),67,"US");
("KCKM",3430713,(-9051191),173,"US");
("KCKN",4784414,(-9662868),899,"US");
("KCKP",4273634,(-9555531),1226,"US");
("KCKV",3662947,(-8741759),550,"US");
("KCKZ",4039120,(-7528359),567,"US");
("KCLE",4139987,(-8187349),791,"US");
("KCLG",3616497,(-12036595),714,"US");
("KCLI",4461803,(-8873826),822,"US");
("KCLK",3554302,(-9893219),1615,"US");
("KCLL",3059664,(-9636286),321,"US");
("KCLM",4812104,(-12351156),291,"US");
("KCLR",3313140,(-11552697),(-182),"US");
("KCLS",4668388,(-12298313),176,"US");
("KCLT",3522537,(-8096749),749,"US");
("KCLW",2798080,(-8276094),71,"US");
("KCMA",3421383,(-11910381),77,"US");
("KCMH",3999557,(-8290894),815,"US");
("KCMI",4004736,(-8828573),754,"US");
("KCMR",3531028,(-11219193),6678,"US");
("KCMX",4717531,(-8849887),1095,"US");
("KCMY",4396221,(-9074601),837,"US");
("KCNB",4473280,(-9627365),1193,"US");
("KCNC",4102077,(-9336347),1050,"US");
("KCNH",4337067,(-7237450),545,"US");
("KCNK",3955403,(-9765327),1486,"US");
("KCNM",3232265,(-10427426),3295,"US");
("KCNO",3397351,(-11764673),650,"US");
("KCNP",4108099,(-10246961),3682,"US");
("KCNU",3767369,(-9548587),1002,"US");
("KCNW",3165160,(-9707381),470,"US");
("KCNY",3874748,(-10976283),4555,"US");
("KCOD",4451325,(-10903635),5102,"US");
("KCOE",4777189,(-11683712),2318,"US");
("KCOF",2822112,(-8061504),8,"US");
("KCOI",2834324,(-8069077),6,"US");
("KCOM",3184676,(-9940666),1697,"US");
("KCON",4320817,(-7150766),346,"US");
("KCOQ",4670566,(-9250564),1279,"US");
("KCOS",3881609,(-10468573),6187,"US");
("KCOT",2846152,(-9922389),474,"US");
("KCOU",3880522,(-9222373),889,"US");
("KCPC",3426727,(-7872109),98,"US");
("KCPK",3665958,(-7632629),20,"US");
("KCPM",3389016,(-11824928),97,"US");
("KCPR",4289334,(-10647523),5347,"US");
("KCPS",3857400,(-9016505),413,"US");
("KCPT",3236107,(-9743702),854,"US");
("KCPU",3815021,(-12065169),1325,"US");
("KCQA",4048342,(-8456687),894,"US");
("KCQB",3572957,(-9682025),984,"US");
("KCQF",3045155,(-8787874),95,"US");
("KCQM",4782511,(-9269387),1327,"US");
("KCQW",3471053,(-7996483),239,"US");
("KCQX",4168543,(-6999333),68,"US");
("KCRE",3380603,(-7873105),32,"US");
("KCRG",3032889,(-8151894),41,"US");
("KCRO",3610694,(-11959834),197,"US");
("KCRP",2777700,(-9751339),44,"US");
("KCRQ",3312698,(-11728793),331,"US");
("KCRS",3203311,(-9640266),449,"US");
("KCRT",3316984,(-9189308),184,"US");
("KCRW",3836958,(-8160170),981,"US");
("KCRX",3492384,(-8860470),425,"US");
("KCRZ",4099781,(-9475494),1274,"US");
("KCSB",4031164,(-10016523),2414,"US");
("KCSG",3251117,(-8494532),397,"US");
("KCSL",3533417,(-12073829),250,"US");
("KCSM",3535966,(-9920144),1922,"US");
("KCSQ",4102762,(-9436612),1300,"US");
("KCSV",3594917,(-8509375),1880,"US");
("KCTB",4861345,(-11238202),3854,"US");
("KCTJ",3363935,(-8515492),1161,"US");
("KCTK",4057308,(-9007388),684,"US");
("KCTY",2963403,(-8310789),42,"US");
("KCTZ",3497061,(-7837212),148,"US");
("KCUB",3397461,(-8100181),192,"US");
("KCUH",3595726,(-9676929),916,"US");
("KCUL",3809497,(-8812303),388,"US");
("KCUS",3182381,(-10763376),4024,"US");
("KCUT",4373230,(-10362958),5602,"US");
("KCVG",3907088,(-8468374),896,"US");
("KCVH",3690132,(-12141787),230,"US");
("KCVK",3625953,(-9156838),716,"US");
("KCVN",3442056,(-10308611),4216,"US");
("KCVO",4450348,(-12329104),246,"US");
("KCVS",3437673,(-10333191),4295,"US");
("KCVX",4530418,(-8528581),669,"US");
("KCWA",4477988,(-8967554),1277,"US");
("KCWF",3022384,(-9315052),17,"US");
("KCWI",4182634,(-9033303),708,"US");
("KCWS",3508149,(-9243216),315,"US");
("KCWV",3219491,(-8187764),112,"US");
("KCXE",3679297,(-7850209),503,"US");
("KCXL",3266756,(-11552518),4,"US");
("KCXO",3035930,(-9541775),245,"US");
("KCXP",3919455,(-11974446),4697,"US");
("KCXU",3121187,(-8424309),175,"US");
("KCXY",4021559,(-7685854),347,"US");
("KCYO",3951005,(-8298256),684,"US");
("KCYS",4115675,(-10482116),6156,"US");
("KCYW",3939290,(-9715704),1208,"US");
("KCZD",4087341,(-10000938),2502,"US");
("KCZG",4207364,(-7609922),833,"US");
("KCZK",4567605,(-12188241),150,"US");
("KCZL",3446351,(-8494126),647,"US");
("KCZT",2852702,(-9982923),599,"US");
("KDAA",3872042,(-7718829),73,"US");
("KDAB",2917255,(-8107779),34,"US");
("KDAF",4403714,(-9008516),919,"US");
("KDAG",3485149,(-11679783),1927,"US");
("KDAL",3285132,(-9686345),487,"US");
("KDAN",3657820,(-7933807),571,"US");
("KDAW",4328765,(-7093494),322,"US");
("KDAY",3989511,(-8424602),1009,"US");
("KDBN",3255729,(-8298492),309,"US");
("KDBQ",4240931,(-9071552),1076,"US");
("KDCA",3884239,(-7703682),15,"US");
("KDCR",4084105,(-8486279),842,"US");
("KDCU",3466244,(-8694516),592,"US");
("KDCY",3870677,(-8712973),473,"US");
("KDDC",3777316,(-9997202),2594,"US");
("KDDH",4289374,(-7325248),827,"US");
("KDDJ",3315230,(-9685340),611,"US");
("KDEC",3982710,(-8887452),682,"US");
("KDED",2907241,(-8129263),79,"US");
("KDEH",4327780,(-9174620),1157,"US");
("KDEN",3989580,(-10469608),5431,"US");
("KDEQ",3404621,(-9440757),355,"US");
("KDET",4241796,(-8301624),626,"US");
("KDEW",4797692,(-11743121),2210,"US");
("KDFI",4133992,(-8443573),707,"US");
("KDFW",3291572,(-9702597),607,"US");
("KDGL",3133489,(-10950905),4173,"US");
("KDGW",4279911,(-10539394),4932,"US");
("KDHN",3133059,(-8546165),401,"US");
("KDHT",3603112,(-10254641),3991,"US");
("KDIJ",4373579,(-11110779),6229,"US");
("KDIK",4680493,(-10280777),2592,"US");
("KDKB",4192711,(-8870703),915,"US");
("KDKK",4249007,(-7927731),693,"US");
("KDKR",3130178,(-9540618),348,"US");
("KDKX",3596259,(-8387938),833,"US");
("KDLC",3444724,(-7937306),133,"US");
("KDLF",2936745,(-10078791),1081,"US");
("KDLH",4684245,(-9222029),1428,"US");
("KDLL",4351617,(-8977163),980,"US");
("KDLN",4526613,(-11255249),5241,"US");
("KDLO",3575281,(-11923999),314,"US");
("KDLS",4562353,(-12117344),247,"US");
("KDLZ",4028070,(-8312367),945,"US");
("KDMA",3218028,(-11089809),2704,"US");
("KDMN",3226302,(-10772843),4314,"US");
("KDMO",3871683,(-9317238),909,"US");
("KDMW",3961422,(-7701245),789,"US");
("KDNL",3346079,(-8204355),422,"US");
("KDNN",3472846,(-8487648),710,"US");
("KDNS",4198961,(-9538711),1276,"US");
("KDNV",4019378,(-8759963),697,"US");
("KDOV",3913930,(-7548611),28,"US");
("KDPA",4189403,(-8825355),758,"US");
("KDPG",4021215,(-11295437),4348,"US");
("KDPL",3499342,(-7798763),137,"US");
("KDQH",3147010,(-8286631),257,"US");
("KDRI",3083798,(-9333780),202,"US");
("KDRM",4600695,(-8375386),668,"CA");
("KDRO",3714148,(-10776335),6685,"US");
("KDRT",2938086,(-10093348),999,"US");
("KDRU",4662172,(-11320965),4245,"US");
("KDSM",4152337,(-9367711),957,"US");
("KDSV",4257342,(-7771823),662,"US");
("KDTA",3938619,(-11251698),4759,"US");
("KDTG",4113251,(-8844293),632,"US");
("KDTL",4682957,(-9588963),1396,"US");
("KDTN",3254596,(-9375043),179,"US");
("KDTO",3320896,(-9719779),642,"US");
("KDTS",3040549,(-8647634),23,"US");
("KDTW",4220233,(-8337127),646,"US");
("KDUA",3394904,(-9639499),698,"US");
("KDUC",3448001,(-9795998),1113,"US");
("KDUG",3146889,(-10961389),4154,"US");
("KDUH",4173551,(-8366458),669,"US");
("KDUJ",4117477,(-7890756),1817,"US");
("KDUX",3585014,(-10201696),3705,"US");
("KDVK",3757985,(-8477506),1022,"US");
("KDVL",4812042,(-9891477),1455,"US");
("KDVN",4161536,(-9059340),753,"US");
("KDVO",3814746,(-12255912),2,"US");
("KDVP",4399027,(-9578194),1623,"US");
("KDVT",3368683,(-11209627),1478,"US");
("KDWH",3007331,(-9555481),152,"US");
("KDWS",2840206,(-8157221),0,"US");
("KDWU",3855564,(-8274774),546,"US");
("KDWX",4103426,(-10750484),6520,"US");
("KDXE",3678366,(-8994092),305,"US");
("KDXR",4136869,(-7349076),458,"US");
("KDXX",4498998,(-9618306),1082,"US");
("KDXZ",3702501,(-11351728),2884,"US");
("KDYB",3306010,(-8028389),56,"US");
("KDYL",4033025,(-7512543),394,"US");
("KDYR",3599044,(-8941389),338,"US");
("KDYS",3243896,(-9985883),1789,"US");
("KDYT",4672498,(-9204749),610,"US");
("KEAG",4271359,(-9392105),1133,"US");
("KEAN",4205546,(-10493954),4774,"US");
("KEAR",4073640,(-9900711),2131,"US");
("KEAT",4739895,(-12020285),1249,"US");
("KEAU",4485929,(-9149272),913,"US");
("KEBG",2644723,(-9812672),75,"US");
("KEBS",4244051,(-9387328),1121,"US");
("KECG",3626135,(-7618420),12,"US");
("KECP",3037111,(-8580119),69,"US");
("KECS",4389121,(-10432153),4174,"US");
("KECU",2995149,(-10017750),2372,"US");
("KEDC",3040353,(-9757346),761,"US");
("KEDE",3602035,(-7656975),20,"US");
("KEDG",3938525,(-7629042),30,"US");
("KEDJ",4036989,(-8382741),1123,"US");
("KEDN",3129538,(-8590627),361,"US");
("KEDU",3853582,(-12178640),68,"US");
("KEDW",3493104,(-11783719),2302,"US");
("KEED",3476706,(-11463364),983,"US");
("KEEN",4288732,(-7227088),488,"US");
("KEEO",4004192,(-10789331),6421,"US");
("KEET",3318412,(-8678636),587,"US");
("KEFC",4473966,(-10386602),3190,"US");
("KEFD",2961833,(-9516439),32,"US");
("KEFK",4488471,(-7223486),930,"US");
("KEFT",4261878,(-8959683),1086,"US");
("KEFW",4201379,(-9434694),1048,"US");
("KEGE",3964103,(-10693176),6540,"US");
("KEGI",3066134,(-8652268),191,"US");
("KEGP",2870431,(-10048050),805,"US");
("KEGQ",4310713,(-9471170),1205,"US");
("KEGT",3732939,(-9738841),1277,"US");
("KEGV",4592698,(-8927605),1642,"US");
("KEHA",3699513,(-10188417),3622,"US");
("KEHO",3525021,(-8160728),847,"US");
("KEHR",3780762,(-8769521),386,"US");
("KEIK",4001653,(-10504992),5130,"US");
("KEIW",3653971,(-8959974),295,"US");
("KEKA",4080629,(-12411665),7,"US");
("KEKM",4172090,(-8601939),778,"US");
("KEKN",3889301,(-7986265),1987,"US");
("KEKO",4081908,(-11580562),5140,"US");
("KEKQ",3685081,(-8486012),963,"US");
("KEKS",4527818,(-11164918),5383,"US");
("KEKX",3768035,(-8593257),775,"US");
("KEKY",3330783,(-8693304),699,"US");
("KELA",2960584,(-9632296),184,"US")].
(** openap/data/nav/airports.csv:3002-3501 *)
Definition apts06 : list apt := [
("KELD",3321394,(-9281876),277,"US");
("KELK",3543821,(-9939425),2002,"US");
("KELM",4215466,(-7690165),954,"US");
("KELN",4703136,(-12054331),1763,"US");
("KELO",4782836,(-9184062),1455,"US");
("KELP",3180154,(-10639985),3958,"US");
("KELY",3930882,(-11483562),6259,"US");
("KELZ",4210943,(-7799975),2124,"US");
("KEMM",4183312,(-11055897),7285,"US");
("KEMP",3832542,(-9619300),1208,"US");
("KEMT",3408104,(-11803767),296,"US");
("KEMV",3669261,(-7748768),127,"US");
("KEND",3635553,(-9791464),1307,"US");
("KENL",3852173,(-8909160),534,"US");
("KENV",4072620,(-11404299),4237,"US");
("KENW",4259300,(-8794171),743,"US");
("KEOK",4045962,(-9143607),671,"US");
("KEOP",3916379,(-8293581),660,"US");
("KEOS",3680408,(-9439348),1255,"US");
("KEPG",4087071,(-9610842),1183,"US");
("KEPH",4730436,(-11952394),1275,"US");
("KEPM",4491339,(-6701890),45,"US");
("KEQA",3777928,(-9681986),1378,"US");
("KEQY",3501365,(-8062695),679,"US");
("KERI",4207665,(-8018440),733,"US");
("KERR",4479599,(-7116945),1245,"US");
("KERV",2997850,(-9909189),1617,"US");
("KERY",4631571,(-8546782),869,"US");
("KESC",4572082,(-8711195),609,"US");
("KESF",3139444,(-9230600),112,"US");
("KESN",3879740,(-7607196),72,"US");
("KEST",4341473,(-9474825),1319,"US");
("KESW",4725591,(-12119020),2226,"US");
("KETB",4342537,(-8813470),887,"US");
("KETC",3593667,(-7755320),53,"US");
("KETH",4578434,(-9654454),1025,"US");
("KETN",3241906,(-9880954),1464,"US");
("KEUF",3195818,(-8512842),285,"US");
("KEUG",4413545,(-12321915),374,"US");
("KEUL",4364719,(-11664309),2431,"US");
("KEVB",2905488,(-8095800),10,"US");
("KEVM",4742396,(-9250444),1378,"US");
("KEVU",4035866,(-9492097),1150,"US");
("KEVV",3803065,(-8753593),418,"US");
("KEVW",4127068,(-11104733),7143,"US");
("KEVY",3952634,(-7572249),70,"US");
("KEWB",4168030,(-7096394),80,"US");
("KEWK",3806489,(-9727639),1533,"US");
("KEWN",3506544,(-7704829),18,"US");
("KEWR",4067538,(-7417945),18,"US");
("KEXX",3577678,(-8031030),732,"US");
("KEYE",3982554,(-8629760),823,"US");
("KEYF",3460737,(-7858413),133,"US");
("KEYQ",2993522,(-9564506),137,"US");
("KEYW",2455605,(-8176677),2,"US");
("KEZF",3826354,(-7745246),85,"US");
("KEZI",4120410,(-8997381),858,"US");
("KEZM",3220777,(-8313146),304,"US");
("KEZS",4478938,(-8856675),813,"US");
("KEZZ",3973304,(-9427677),1036,"US");
("KFAF",3713504,(-7661333),12,"US");
("KFAM",3775595,(-9043144),947,"US");
("KFAR",4693287,(-9681611),902,"US");
("KFAT",3678321,(-11973268),335,"US");
("KFAY",3498435,(-7888701),189,"US");
("KFBG",3513143,(-7894428),242,"US");
("KFBL",4433146,(-9331810),1060,"US");
("KFBR",4138682,(-11041628),7034,"US");
("KFBY",4018805,(-9716920),1479,"US");
("KFCH",3673472,(-11982484),277,"US");
("KFCI",3741231,(-7753078),237,"US");
("KFCM",4482905,(-9347072),906,"US");
("KFCS",3868300,(-10476202),5838,"US");
("KFCT",4666583,(-12045778),1370,"US");
("KFCY",3494614,(-9077488),249,"US");
("KFDK",3940960,(-7738044),303,"US");
("KFDR",3436028,(-9898934),1255,"US");
("KFDW",3431006,(-8111393),577,"US");
("KFDY",4102177,(-8366615),813,"US");
("KFEP",4223994,(-8959011),859,"US");
("KFES",3819793,(-9038492),433,"US");
("KFET",4145578,(-9652870),1203,"US");
("KFFA",3601457,(-7567345),13,"US");
("KFFC",3336168,(-8457856),808,"US");
("KFFL",4105902,(-9198164),799,"US");
("KFFM",4628929,(-9616226),1182,"US");
("KFFO",3981489,(-8406515),823,"US");
("KFFT",3817949,(-8491254),803,"US");
("KFFZ",3345590,(-11173409),1394,"US");
("KFGU",3503918,(-8502022),859,"US");
("KFGX",3853916,(-8375143),913,"US");
("KFHR",4852662,(-12302473),113,"US");
("KFHU",3158756,(-11036704),4719,"US");
("KFIG",4105060,(-7842081),1516,"US");
("KFIT",4255773,(-7176543),348,"US");
("KFKA",4367830,(-9218711),1276,"US");
("KFKL",4137005,(-7986334),1540,"US");
("KFKN",3669923,(-7691053),41,"US");
("KFKR",4027268,(-8656889),861,"US");
("KFKS",4462942,(-8620592),633,"US");
("KFLD",4377914,(-8848618),808,"US");
("KFLG",3513122,(-11167892),7011,"US");
("KFLL",2607695,(-8016654),9,"US");
("KFLO",3418535,(-7973393),146,"US");
("KFLP",3628659,(-9259686),719,"US");
("KFLV",3937592,(-9491839),772,"US");
("KFLX",3949435,(-11875658),3963,"US");
("KFME",3908553,(-7676482),150,"US");
("KFMH",4166733,(-7053880),130,"US");
("KFMM",4034102,(-10381021),4569,"US");
("KFMN",3674109,(-10823993),5505,"US");
("KFMY",2658001,(-8187109),17,"US");
("KFMZ",4059538,(-9757112),1636,"US");
("KFNB",4008342,(-9559574),984,"US");
("KFNL",4046230,(-10501740),5016,"US");
("KFNT",4297273,(-8374346),782,"US");
("KFOA",3865828,(-8845709),473,"US");
("KFOD",4254763,(-9420574),1157,"US");
("KFOE",3896557,(-9567807),1078,"US");
("KFOK",4083624,(-7263901),67,"US");
("KFOM",3895415,(-11237039),4988,"US");
("KFOT",4055728,(-12413838),392,"US");
("KFOZ",4778656,(-9365325),1348,"US");
("KFPK",4257001,(-8481373),891,"US");
("KFPR",2749726,(-8037937),23,"US");
("KFQD",3542142,(-8193717),1078,"US");
("KFRG",4073462,(-7342172),82,"US");
("KFRH",3850438,(-8664627),792,"US");
("KFRI",3904868,(-9677067),1063,"US");
("KFRM",4364932,(-9442512),1162,"US");
("KFRR",3891729,(-7825866),709,"US");
("KFSD",4357262,(-9675369),1429,"US");
("KFSE",4759751,(-9577503),1277,"US");
("KFSI",3465669,(-9840216),1188,"US");
("KFSK",3780440,(-9476937),918,"US");
("KFSM",3533361,(-9438142),469,"US");
("KFSO",4493625,(-7309640),228,"US");
("KFST",3092012,(-10292678),3011,"US");
("KFSU",3448333,(-10421722),4165,"US");
("KFSW",4066446,(-9132939),724,"US");
("KFTG",3979401,(-10456529),5512,"US");
("KFTK",3790856,(-8597980),755,"US");
("KFTT",3884100,(-9199987),886,"US");
("KFTW",3283018,(-9736248),709,"US");
("KFTY",3377869,(-8453009),841,"US");
("KFUL",3387106,(-11798481),96,"US");
("KFVE",4728822,(-6832110),988,"US");
("KFVX",3735171,(-7844069),417,"US");
("KFWA",4096269,(-8521269),815,"US");
("KFWC",3837798,(-8842219),436,"US");
("KFWN",4119558,(-7462479),421,"US");
("KFWQ",4020762,(-7983807),1228,"US");
("KFWS",3257251,(-9730966),700,"US");
("KFXE",2619758,(-8018086),13,"US");
("KFXY",4324063,(-9362694),1230,"US");
("KFYE",3520090,(-8939559),436,"US");
("KFYJ",3752089,(-7677116),24,"US");
("KFYM",3505183,(-8656637),984,"US");
("KFYV",3601319,(-9417200),1251,"US");
("KFZG",3167652,(-8327463),365,"US");
("KFZI",4119082,(-8340214),752,"US");
("KFZY",4335640,(-7639471),475,"US");
("KGAB",3892480,(-11796937),4700,"US");
("KGAD",3396584,(-8610107),569,"US");
("KGAF",4840583,(-9738361),824,"US");
("KGAI",3917182,(-7717190),539,"US");
("KGAO",2945005,(-9026106),1,"US");
("KGAS",3883043,(-8216864),566,"US");
("KGBD",3835786,(-9885736),1887,"US");
("KGBG",4093090,(-9043649),764,"US");
("KGBN",3289917,(-11271972),858,"US");
("KGBR",4218453,(-7340841),739,"US");
("KGCC",4435705,(-10554390),4365,"US");
("KGCK",3793925,(-10072282),2891,"US");
("KGCM",3629986,(-9547960),733,"US");
("KGCN",3594299,(-11215683),6609,"US");
("KGCT",4169167,(-9443506),1230,"US");
("KGCY",3618712,(-8282291),1608,"US");
("KGDB",4475796,(-9555880),1047,"US");
("KGDJ",3244869,(-9781988),778,"US");
("KGDM",4255385,(-7201747),955,"US");
("KGDV",4714339,(-10481355),2456,"US");
("KGDW",4397174,(-8448287),776,"US");
("KGDY",3722979,(-8212749),2304,"US");
("KGED",3868406,(-7536486),50,"US");
("KGEG",4761393,(-11754430),2376,"US");
("KGEO",3888672,(-8388379),958,"US");
("KGEU",3351806,(-11230028),1071,"US");
("KGEV",3643233,(-8142699),3180,"US");
("KGEY",4452924,(-10808121),3933,"US");
("KGEZ",3957789,(-8580464),804,"US");
("KGFA",4749420,(-11120511),3526,"US");
("KGFD",3979306,(-8573621),895,"US");
("KGFK",4795925,(-9718119),845,"US");
("KGFL",4333567,(-7360868),328,"US");
("KGFZ",4132611,(-9445033),1361,"US");
("KGGE",3330960,(-7932625),39,"US");
("KGGF",4087613,(-10173872),3424,"US");
("KGGG",3239254,(-9472012),365,"US");
("KGGI",4171496,(-9274254),1008,"US");
("KGGP",4071118,(-8638296),738,"US");
("KGGW",4821641,(-10662181),2294,"US");
("KGHG",4209538,(-7067612),11,"US");
("KGHM",3583219,(-8744749),768,"US");
("KGHW",4564815,(-9532294),1393,"US");
("KGIC",4594263,(-11613344),3310,"US");
("KGIF",2805852,(-8175787),145,"US");
("KGJT",3913497,(-10854434),4858,"US");
("KGKJ",4162321,(-8022275),1400,"US");
("KGKT",3585892,(-8353788),1014,"US");
("KGKY",3267204,(-9709633),627,"US");
("KGLD",3937472,(-10170508),3656,"US");
("KGLE",3366124,(-9719948),845,"US");
("KGLH",3349687,(-9098209),131,"US");
("KGLR",4501450,(-8471701),1328,"US");
("KGLS",2927351,(-9485907),6,"US");
("KGLW",3702946,(-8596236),715,"US");
("KGLY",3835269,(-9368911),822,"US");
("KGMJ",3661392,(-9473858),830,"US");
("KGMU",3484050,(-8234859),1047,"US");
("KGNB",4009102,(-10592618),8203,"US");
("KGNC",3267853,(-10266531),3315,"US");
("KGNF",3384143,(-8980852),208,"US");
("KGNG",4291651,(-11477395),3728,"US");
("KGNT",3517737,(-10791023),6537,"US");
("KGNV",2969056,(-8228060),152,"US");
("KGOK",3585524,(-9741741),1068,"US");
("KGON",4132503,(-7204803),8,"US");
("KGOO",3922375,(-12101076),3152,"US");
("KGOV",4467918,(-8473483),1158,"US");
("KGPH",3934000,(-9430844),777,"US");
("KGPI",4829881,(-11426767),2977,"US");
("KGPM",3270428,(-9704688),587,"US");
("KGPT",3039990,(-8907723),27,"US");
("KGPZ",4721468,(-9351319),1355,"US");
("KGQQ",4075014,(-8272845),1224,"US");
("KGRB",4449382,(-8813366),694,"US");
("KGRD",3424816,(-8216732),631,"US");
("KGRE",3884118,(-8937646),541,"US");
("KGRF",4708740,(-12258353),302,"US");
("KGRI",4097992,(-9831476),1847,"US");
("KGRK",3107992,(-9783508),1015,"US");
("KGRN",4280198,(-10218119),3562,"US");
("KGRR",4287663,(-8554218),793,"US");
("KGSB",3533469,(-7797945),110,"US");
("KGSH",4152526,(-8580170),827,"US");
("KGSO",3609926,(-7995905),926,"US");
("KGSP",3488289,(-8222864),963,"US");
("KGTB",4404547,(-7572580),690,"US");
("KGTE",4092345,(-10015146),2559,"US");
("KGTF",4746934,(-11138383),3677,"US");
("KGTG",4579676,(-9266826),927,"US");
("KGTR",3345929,(-8859129),264,"US");
("KGTU",3068590,(-9767791),790,"US");
("KGUC",3853244,(-10694509),7678,"US");
("KGUP",3550827,(-10880111),6472,"US");
("KGUS",4063582,(-8616787),812,"US");
("KGUY",3669313,(-10150671),3123,"US");
("KGVE",3815350,(-7816823),454,"US");
("KGVL",3426707,(-8383793),1275,"US");
("KGVQ",4303186,(-7817994),913,"US");
("KGVT",3307887,(-9606516),535,"US");
("KGVW",3883245,(-9456408),1090,"US");
("KGWB",4130708,(-8507345),880,"US");
("KGWO",3349913,(-9008802),162,"US");
("KGWR",4622442,(-9764536),1266,"US");
("KGWS",3951222,(-10731416),5916,"US");
("KGWV",3994512,(-8075977),648,"US");
("KGWW",3545506,(-7797126),134,"US");
("KGXY",4045625,(-10463224),4697,"US");
("KGYB",3017474,(-9698065),485,"US");
("KGYH",3474990,(-8238497),955,"US");
("KGYI",3372632,(-9667257),749,"US");
("KGYL",4475900,(-9408601),992,"US");
("KGYR",3341472,(-11238334),968,"US");
("KGYY",4162134,(-8742171),592,"US");
("KGZH",3140928,(-8704747),259,"US");
("KGZS",3515982,(-8706061),685,"US");
("KHAB",3412450,(-8799791),442,"US");
("KHAD",4292311,(-10631703),5370,"US");
("KHAE",3973111,(-9144524),773,"US");
("KHAF",3751845,(-12250705),66,"US");
("KHAI",4196044,(-8560123),824,"US");
("KHAO",3936639,(-8453106),633,"US");
("KHAX",3574822,(-9541852),627,"US");
("KHBC",4877165,(-10154117),1649,"US");
("KHBG",3127044,(-8926026),151,"US");
("KHBI",3564750,(-7989814),673,"US");
("KHBR",3499887,(-9905438),1564,"US");
("KHBV",2735436,(-9874247),663,"US");
("KHBW",4364600,(-9034628),938,"US");
("KHBZ",3550891,(-9201881),632,"US");
("KHCD",4486474,(-9438607),1060,"US");
("KHCO",4875694,(-9694835),819,"US");
("KHDC",3052793,(-9042515),45,"US");
("KHDE",4044623,(-9933888),2313,"US");
("KHDI",3521594,(-8483482),874,"US");
("KHDN",4048670,(-10723411),6602,"US");
("KHDO",2936404,(-9918507),930,"US");
("KHEE",3458588,(-9067762),242,"US");
("KHEF",3872770,(-7751877),192,"US");
("KHEG",3026679,(-8181209),87,"US");
("KHEI",4602000,(-10266139),2705,"US");
("KHEQ",4057529,(-10227736),3730,"US");
("KHES",3865586,(-12290124),278,"US");
("KHEZ",3162058,(-9130590),272,"US");
("KHFD",4173164,(-7264981),18,"US");
("KHFF",3503430,(-7950629),376,"US");
("KHFY",3962094,(-8608919),822,"US");
("KHGR",3970672,(-7774038),704,"US");
("KHHF",3589008,(-10041022),2394,"US");
("KHHG",4085318,(-8546611),806,"US");
("KHHR",3392247,(-11834334),66,"US");
("KHHW",3404060,(-9554192),571,"US");
("KHIB",4739168,(-9284779),1353,"US");
("KHIE",4436728,(-7155345),1074,"US");
("KHIF",4114042,(-11198421),4789,"US");
("KHIG",3907831,(-9367931),834,"US");
("KHII",3458061,(-11436499),781,"US");
("KHIO",4554951,(-12295940),204,"US");
("KHJH",4015534,(-9759212),1466,"US");
("KHJO",3632297,(-11963183),244,"US");
("KHKA",3594727,(-8983097),255,"US");
("KHKS",3234289,(-9022673),342,"US");
("KHKY",3573499,(-8139724),1189,"US");
("KHLB",3935130,(-8525845),973,"US");
("KHLC",3938707,(-9983128),2230,"US");
("KHLG",4016857,(-8065131),1195,"US");
("KHLM",4279367,(-8616606),603,"US");
("KHLN",4660841,(-11199769),3877,"US");
("KHLR",3114356,(-9771614),924,"US");
("KHLX",3676043,(-8082481),2693,"US");
("KHMN",3284623,(-10612464),4093,"US");
("KHMT",3373074,(-11702914),1512,"US");
("KHMY",3502914,(-9723158),1087,"US");
("KHMZ",4009032,(-7852059),1163,"US");
("KHNB",3824911,(-8696241),529,"US");
("KHND",3598089,(-11513531),2492,"US");
("KHNR",4159000,(-9534278),1231,"US");
("KHNZ",3635726,(-7853581),527,"US");
("KHOB",3267869,(-10322587),3661,"US");
("KHOC",3918561,(-8354350),977,"US");
("KHOE",3105982,(-8277863),186,"US");
("KHON",4439241,(-9824142),1289,"US");
("KHOP",3666126,(-8750506),573,"US");
("KHOT",3447303,(-9310627),540,"US");
("KHOU",2963911,(-9528532),45,"US");
("KHPN",4106705,(-7371576),439,"US");
("KHPT",4272921,(-9322628),1176,"US");
("KHPY",2979083,(-9495681),34,"US");
("KHQG",3715555,(-10137454),3133,"US");
("KHQM",4696999,(-12394642),18,"US");
("KHQU",3353004,(-8252499),498,"US");
("KHQZ",3275521,(-9653027),447,"US");
("KHRI",4582535,(-11926698),644,"US");
("KHRJ",3537489,(-7873762),202,"US");
("KHRL",2624038,(-9765857),36,"US");
("KHRO",3626994,(-9315372),1365,"US");
("KHRT",3044208,(-8668987),38,"US");
("KHRU",3868897,(-9680799),1480,"US");
("KHRX",3485176,(-10233167),3785,"US");
("KHSA",3037949,(-8945457),22,"US");
("KHSB",3780896,(-8855947),396,"US");
("KHSD",3560870,(-9770645),1193,"US");
("KHSE",3523053,(-7562199),17,"US");
("KHSI",4061438,(-9843365),1961,"US");
("KHSP",3794747,(-7984219),3792,"US");
("KHSR",4336341,(-10339236),3148,"US");
("KHST",2547851,(-8039644),6,"US");
("KHSV",3465279,(-8678210),629,"US");
("KHTH",3854757,(-11864272),4215,"US");
("KHTL",4436120,(-8467625),1150,"US");
("KHTO",4095888,(-7226031),56,"US");
("KHTS",3837165,(-8257006),828,"US");
("KHTW",3841839,(-8250094),568,"US");
("KHUA",3468852,(-8668700),685,"US");
("KHUF",3944053,(-8732316),589,"US");
("KHUL",4611718,(-6779719),489,"US");
("KHUM",2957495,(-9066026),10,"US");
("KHUT",3807421,(-9787109),1543,"US");
("KHVC",3685538,(-8746426),564,"US");
("KHVE",3841700,(-11071410),4443,"US");
("KHVN",4125605,(-7288825),14,"US");
("KHVR",4854405,(-10977277),2590,"US");
("KHVS",3439672,(-8012239),364,"US");
("KHWD",3766204,(-12212979),52,"US");
("KHWO",2600705,(-8024402),9,"US");
("KHWQ",4645472,(-10986333),4311,"US");
("KHWV",4082235,(-7287167),81,"US");
("KHWY",3859314,(-7771818),337,"US");
("KHXD",3221905,(-8070053),19,"US");
("KHXF",4335057,(-8839666),1070,"US");
("KHYA",4167479,(-7029191),55,"US");
("KHYI",2989181,(-9787708),597,"US");
("KHYR",4601963,(-9144837),1216,"US");
("KHYS",3885284,(-9927630),1998,"US");
("KHYW",3382335,(-7912600),34,"US");
("KHYX",4343391,(-8387233),601,"US");
("KHZD",3608325,(-8846491),496,"US");
("KHZE",4729597,(-10158550),1813,"US");
("KHZL",4098726,(-7600374),1603,"US");
("KHZR",3072517,(-9147806),39,"US");
("KHZX",4662237,(-9331415),1228,"US");
("KHZY",4177656,(-8070484),924,"US");
("KIAB",3760727,(-9727349),1371,"US");
("KIAD",3894483,(-7747467),313,"US");
("KIAG",4310954,(-7896882),589,"US");
("KIAH",2998789,(-9535786),97,"US");
("KIBM",4119023,(-10368821),4926,"US");
("KICL",4071514,(-9503060),994,"US");
("KICT",3763502,(-9744600),1333,"US");
("KIDA",4351149,(-11206210),4744,"US");
("KIDG",4233489,(-9544987),1245,"US");
("KIDI",4063283,(-7911269),1405,"US");
("KIDL",3349535,(-9067891),126,"US");
("KIDP",3716473,(-9577656),825,"US");
("KIEN",4302556,(-10251391),3333,"US");
("KIER",3173967,(-9309946),121,"US");
("KIFA",4247467,(-9327516),1137,"US");
("KIFP",3516627,(-11456021),701,"US");
("KIGM",3525148,(-11394810),3449,"US");
("KIGQ",4153618,(-8752766),620,"US");
("KIGX",3593422,(-7907260),512,"US");
("KIIB",4245908,(-9194769),978,"US");
("KIIY",3378264,(-8282116),645,"US");
("KIJD",4173778,(-7218333),247,"US");
("KIJX",3977933,(-9024472),624,"US");
("KIKG",2755718,(-9803687),131,"US");
("KIKK",4106579,(-8785477),630,"US");
("KIKV",4169765,(-9356582),910,"US");
("KILE",3107859,(-9768904),848,"US");
("KILG",3967814,(-7562014),79,"US");
("KILM",3426189,(-7791031),32,"US");
("KILN",3941936,(-8380927),1077,"US");
("KIML",4051485,(-10162588),3275,"US");
("KIMM",2642632,(-8140485),36,"US");
("KIMS",3875470,(-8546881),817,"US");
("KIMT",4581052,(-8811514),1182,"US");
("KIND",3970640,(-8632082),797,"US");
("KINJ",3208879,(-9709892),685,"US");
("KINK",3178302,(-10320775),2822,"US");
("KINL",4857285,(-9341266),1185,"US");
("KINS",3658446,(-11569557),3133,"US");
("KINT",3613306,(-8022914),969,"US");
("KINW",3501427,(-11073788),4941,"US");
("KIOB",3805203,(-8398354),1019,"US");
("KIOW",4163894,(-9155502),668,"US");
("KIPJ",3547819,(-8116803),875,"US");
("KIPL",3284251,(-11557929),(-54),"US");
("KIPT",4123866,(-7693441),529,"US");
("KIRK",4010073,(-9254420),966,"US");
("KIRS",4182023,(-8544093),925,"US");
("KISB",4337358,(-9575975),1537,"US");
("KISM",2829625,(-8144170),82,"US");
("KISN",4818410,(-10365458),1982,"US");
("KISO",3531953,(-7762150),93,"US");
("KISP",4078864,(-7311245),99,"US");
("KISQ",4597498,(-8618225),685,"US");
("KISW",4435335,(-8984184),1021,"US");
("KISZ",3924391,(-8439401),856,"US");
("KITH",4249719,(-7646756),1099,"US");
("KITR",3924921,(-10228853),4219,"US");
("KIWA",3331767,(-11167287),1382,"US");
("KIWD",4652758,(-9014426),1230,"US");
("KIWH",4076102,(-8580793),796,"US");
("KIWI",4395852,(-6971767),74,"US");
("KIWS",2982310,(-9567527),111,"US");
("KIXD",3883951,(-9489157),1087,"US");
("KIYK",3566711,(-11783339),2455,"US");
("KIZA",3460737,(-12008016),671,"US");
("KIZG",4399442,(-7095486),454,"US");
("KJAC",4359923,(-11074171),6451,"US");
("KJAN",3232819,(-9007771),346,"US");
("KJAS",3089327,(-9403479),213,"US");
("KJAU",3633025,(-8416783),1180,"US");
("KJAX",3049622,(-8169997),30,"US");
("KJBR",3582880,(-9065123),262,"US");
("KJCT",3051715,(-9976439),1749,"US");
("KJDD",3274770,(-9549623),434,"US");
("KJDN",4733120,(-10696058),2662,"US");
("KJEF",3859574,(-9216384),549,"US");
("KJER",4272788,(-11446580),4053,"US");
("KJES",3155521,(-8189123),108,"US");
("KJFK",4064836,(-7381671),13,"US");
("KJFX",3390227,(-8732203),482,"US");
("KJGG",3724139,(-7672084),49,"US");
("KJHW",4214814,(-7926814),1723,"US");
("KJKA",3029028,(-8768024),17,"US");
("KJKJ",4684189,(-9667144),917,"US");
("KJKL",3758787,(-8331829),1381,"US");
("KJLN",3715781,(-9450730),981,"US");
("KJMR",4589354,(-9327208),1012,"US");
("KJMS",4693565,(-9868710),1498,"US");
("KJNX",3553429,(-7839490),165,"US");
("KJOT",4151486,(-8817977),581,"US");
("KJQF",3537778,(-8071139),690,"US");
("KJSO",3187461,(-9522258),677,"US");
("KJST",4032366,(-7884221),2284,"US");
("KJSV",3544370,(-9480278),528,"US");
("KJVL",4262808,(-8905515),808,"US")].
(** openap/data/nav/airports.csv:3502-4001 *)
Definition apts07 : list apt := [
("KJVY",3837202,(-8573788),474,"US");
("KJWG",3587019,(-9842076),1548,"US");
("KJWN",3617505,(-8688909),495,"US");
("KJWY",3246703,(-9691149),713,"US");
("KJXI",3270353,(-9494882),415,"US");
("KJXN",4225610,(-8446665),1001,"US");
("KJYG",4399103,(-9456183),1067,"US");
("KJYL",3263997,(-8160063),188,"US");
("KJYM",4192160,(-8459310),1182,"US");
("KJYO",3908512,(-7756061),389,"US");
("KJYR",4090482,(-9762381),1670,"US");
("KJZI",3270486,(-8001235),17,"US");
("KJZP",3445980,(-8446029),1535,"US");
("KKIC",3623222,(-12112750),370,"US");
("KKLS",4612264,(-12290390),20,"US");
("KKNB",3700259,(-11253526),4868,"US");
("KLAA",3807486,(-10268956),3706,"US");
("KLAF",4040818,(-8693904),605,"US");
("KLAL",2798924,(-8203387),142,"US");
("KLAM",3588144,(-10627856),7171,"US");
("KLAN",4278191,(-8458496),861,"US");
("KLAR",4130269,(-10568738),7284,"US");
("KLAS",3607634,(-11517138),2141,"US");
("KLAW",3457855,(-9841715),1109,"US");
("KLAX",3393585,(-11841940),126,"US");
("KLBB",3368236,(-10182904),3282,"US");
("KLBE",4026521,(-7942091),1185,"US");
("KLBF",4113222,(-10069025),2776,"US");
("KLBL",3705394,(-10095644),2885,"US");
("KLBO",3765519,(-9265217),1321,"US");
("KLBR",3359726,(-9506409),440,"US");
("KLBT",3460426,(-7906733),126,"US");
("KLBX",2911836,(-9546220),25,"US");
("KLCG",4224899,(-9698008),1431,"US");
("KLCH",3012873,(-9322792),15,"US");
("KLCI",4356996,(-7142810),545,"US");
("KLCK",3980107,(-8294198),744,"US");
("KLCQ",3018406,(-8259012),201,"US");
("KLDJ",4061604,(-7425182),23,"US");
("KLDM",4395928,(-8641345),645,"US");
("KLEB",4362584,(-7231206),603,"US");
("KLEE",2882883,(-8181609),77,"US");
("KLEM",4592274,(-10211221),2571,"US");
("KLEW",4404224,(-7028806),288,"US");
("KLEX",3802838,(-8461437),979,"US");
("KLFI",3707763,(-7637640),11,"US");
("KLFK",3123428,(-9475744),296,"US");
("KLFT",3019570,(-9199361),42,"US");
("KLGA",4076917,(-7388412),22,"US");
("KLGB",3382620,(-11816154),60,"US");
("KLGC",3301193,(-8507916),693,"US");
("KLGD",4529554,(-11801196),2717,"US");
("KLGF",3287540,(-11439284),422,"US");
("KLGU",4180584,(-11184764),4457,"US");
("KLHB",3087733,(-9662223),285,"US");
("KLHC",3528771,(-8967560),312,"US");
("KLHM",3891713,(-12135401),121,"US");
("KLHQ",3975612,(-8266597),868,"US");
("KLHV",4113528,(-7742921),556,"US");
("KLHW",3188423,(-8157124),45,"US");
("KLHX",3804813,(-10352337),4238,"US");
("KLHZ",3601764,(-7833637),369,"US");
("KLIC",3928113,(-10366737),5374,"US");
("KLIT",3472251,(-9223802),262,"US");
("KLIU",3391999,(-10238846),3616,"US");
("KLJF",4510124,(-9451239),1140,"US");
("KLKP",4427013,(-7396835),1747,"US");
("KLKR",3471860,(-8086311),486,"US");
("KLKU",3800904,(-7797752),493,"US");
("KLKV",4216837,(-12039904),4733,"US");
("KLLJ",4452917,(-11421722),5072,"US");
("KLLN",3355820,(-10237246),3514,"US");
("KLLQ",3363270,(-9175535),270,"US");
("KLLR",3926639,(-12376083),572,"US");
("KLLU",3748614,(-9431419),1009,"US");
("KLMO",4016794,(-10517086),5052,"US");
("KLMS",3315231,(-8906377),575,"US");
("KLMT",4216921,(-12174041),4095,"US");
("KLNA",2659121,(-8009098),14,"US");
("KLNC",3258448,(-9672424),500,"US");
("KLND",4281119,(-10873546),5586,"US");
("KLNK",4086299,(-9676167),1219,"US");
("KLNL",4615867,(-8921644),1704,"US");
("KLNN",4168042,(-8139744),626,"US");
("KLNP",3698348,(-8253751),2684,"US");
("KLNR",4321259,(-9018717),717,"US");
("KLNS",4011993,(-7630405),403,"US");
("KLOL",4006192,(-11857284),3904,"US");
("KLOM",4013451,(-7527043),301,"US");
("KLOT",4160804,(-8810465),680,"US");
("KLOU",3822543,(-8566945),546,"US");
("KLOZ",3708205,(-8408520),1212,"US");
("KLPC",3466573,(-12047515),88,"US");
("KLPR",4134138,(-8218588),793,"US");
("KLQK",3480502,(-8270866),1013,"US");
("KLQR",3821639,(-9908510),2011,"US");
("KLRD",2755637,(-9945933),507,"US");
("KLRF",3491141,(-9216548),311,"US");
("KLRG",4536540,(-6853769),208,"US");
("KLRJ",4278339,(-9619266),1196,"US");
("KLRO",3290306,(-7978421),12,"US");
("KLRU",3228458,(-10693210),4456,"US");
("KLRY",3861569,(-9434387),915,"US");
("KLSB",3233723,(-10869716),4289,"US");
("KLSE",4389323,(-9125885),653,"US");
("KLSF",3234300,(-8499651),232,"US");
("KLSK",4275680,(-10441304),4964,"US");
("KLSN",3706659,(-12087157),119,"US");
("KLSV",3622669,(-11504681),1870,"US");
("KLTS",3468247,(-9927382),1382,"US");
("KLTY",4851087,(-11099993),3160,"US");
("KLUD",3325996,(-9758139),1047,"US");
("KLUF",3352298,(-11239856),1084,"US");
("KLUG",3550029,(-8680650),717,"US");
("KLUK",3909272,(-8441949),483,"US");
("KLUL",3167840,(-8917904),238,"US");
("KLUM",4489084,(-9187707),895,"US");
("KLVJ",2952613,(-9524607),44,"US");
("KLVK",3769394,(-12182940),400,"US");
("KLVL",3677874,(-7779446),329,"US");
("KLVM",4569332,(-11045507),4660,"US");
("KLVN",4463045,(-9323508),960,"US");
("KLVS",3566431,(-10514883),6877,"US");
("KLWA",4234785,(-8626005),666,"US");
("KLWB",3785046,(-8040649),2302,"US");
("KLWC",3901866,(-9522009),832,"US");
("KLWL",4111730,(-11493216),5772,"US");
("KLWM",4271091,(-7112889),148,"US");
("KLWS",4637376,(-11702758),1438,"US");
("KLWT",4705300,(-10946956),4170,"US");
("KLWV",3876799,(-8760112),430,"US");
("KLXL",4595260,(-9435108),1122,"US");
("KLXN",4079705,(-9978325),2413,"US");
("KLXT",3896673,(-9437344),1004,"US");
("KLXV",3922812,(-10631836),9927,"US");
("KLXY",3164525,(-9651368),544,"US");
("KLYH",3731788,(-7920589),938,"US");
("KLYO",3834553,(-9822862),1691,"US");
("KLZD",4182157,(-7190527),237,"US");
("KLZU",3397443,(-8397124),1061,"US");
("KLZZ",3111189,(-9819697),1215,"US");
("KMAC",3282297,(-8357096),437,"US");
("KMAE",3699398,(-12011917),253,"US");
("KMAF",3195941,(-10220552),2871,"US");
("KMAI",3083086,(-8518974),110,"US");
("KMAL",4484948,(-7433631),790,"US");
("KMAN",4358534,(-11653073),2537,"US");
("KMAO",3417607,(-7933895),92,"US");
("KMAW",3660744,(-8999339),295,"US");
("KMBG",4555012,(-10041483),1715,"US");
("KMBL",4427283,(-8625483),621,"US");
("KMBO",3244481,(-9010369),326,"US");
("KMBS",4352682,(-8408925),668,"US");
("KMBT",3588283,(-8637725),615,"US");
("KMBY",3946691,(-9243228),867,"US");
("KMCB",3118469,(-9047516),413,"US");
("KMCC",3868219,(-12140058),75,"US");
("KMCD",4586371,(-8464399),740,"US");
("KMCE",3729080,(-12052062),156,"US");
("KMCF",2783739,(-8253268),14,"US");
("KMCI",3929333,(-9472932),1026,"US");
("KMCK",4021253,(-10059933),2583,"US");
("KMCN",3268602,(-8366063),354,"US");
("KMCO",2844833,(-8132231),96,"US");
("KMCW",4316863,(-9332771),1213,"US");
("KMCX",4071433,(-8676690),676,"US");
("KMCZ",3585590,(-7718158),76,"US");
("KMDA",2943490,(-9838261),674,"US");
("KMDD",3203734,(-10210888),2803,"US");
("KMDF",3648956,(-9919416),1970,"US");
("KMDH",3779051,(-8924789),411,"US");
("KMDQ",3486828,(-8655734),756,"US");
("KMDS",4402291,(-9709091),1716,"US");
("KMDT",4019938,(-7677860),310,"US");
("KMDW",4179157,(-8776107),620,"US");
("KMDZ",4510313,(-9031016),1470,"US");
("KMEB",3479037,(-7937197),220,"US");
("KMEI",3231772,(-8875640),297,"US");
("KMEJ",3728387,(-10035627),2529,"US");
("KMEM",3505459,(-8997617),341,"US");
("KMER",3739308,(-12058096),191,"US");
("KMEV",3900549,(-11975854),4726,"US");
("KMEY",4217480,(-9579575),1116,"US");
("KMEZ",3454301,(-9420809),1079,"US");
("KMFD",4083309,(-8252833),1297,"US");
("KMFE",2618289,(-9824630),106,"US");
("KMFI",4464433,(-9019414),1277,"US");
("KMFR",4238622,(-12287919),1335,"US");
("KMFV",3764053,(-7576439),47,"US");
("KMGC",4169804,(-8682385),655,"US");
("KMGE",3391912,(-8453217),1068,"US");
("KMGG",4523680,(-9399090),1028,"US");
("KMGJ",4150462,(-7426906),365,"US");
("KMGM",3230240,(-8640998),221,"US");
("KMGN",4542606,(-8492171),686,"US");
("KMGR",3108049,(-8380949),294,"US");
("KMGW",3965067,(-7991877),1248,"US");
("KMGY",3958261,(-8422821),957,"US");
("KMHE",4378095,(-9805151),1304,"US");
("KMHK",3913239,(-9667930),1057,"US");
("KMHL",3910193,(-9320033),779,"US");
("KMHN",4204291,(-10106423),3260,"US");
("KMHP",3237412,(-8208503),197,"US");
("KMHR",3854471,(-12131351),96,"US");
("KMHT",4294176,(-7143959),241,"US");
("KMHV",3506915,(-11816044),2791,"US");
("KMIA",2578610,(-8031482),8,"US");
("KMIB",4842616,(-10138026),1668,"US");
("KMIC",4506449,(-9335782),869,"US");
("KMIE",4024868,(-8540593),937,"US");
("KMIO",3691611,(-9488743),808,"US");
("KMIT",3551067,(-11920102),421,"US");
("KMIV",3936704,(-7508241),85,"US");
("KMIW",4211701,(-9292402),974,"US");
("KMJD",3049436,(-8965118),56,"US");
("KMJQ",4365422,(-9499160),1446,"US");
("KMJX",3992223,(-7430048),82,"US");
("KMKA",4452982,(-9896066),1569,"US");
("KMKC",3911496,(-9459527),759,"US");
("KMKE",4293129,(-8789751),723,"US");
("KMKG",4316163,(-8625089),628,"US");
("KMKJ",3689277,(-8135854),2558,"US");
("KMKL",3559046,(-8891972),434,"US");
("KMKN",3192417,(-9860028),1388,"US");
("KMKO",3566074,(-9536666),612,"US");
("KMKT",4423016,(-9392279),1020,"US");
("KMKV",3109056,(-9207278),79,"US");
("KMKY",2600176,(-8167415),5,"US");
("KMLB",2810128,(-8066113),33,"US");
("KMLC",3487519,(-9578673),770,"US");
("KMLD",4217333,(-11229667),4503,"US");
("KMLE",4119923,(-9611769),1051,"US");
("KMLF",3843342,(-11301301),5039,"US");
("KMLI",4144909,(-9052704),590,"US");
("KMLJ",3315431,(-8325034),384,"US");
("KMLK",4834901,(-10789335),2280,"US");
("KMLS",4642172,(-10589664),2630,"US");
("KMLT",4564937,(-6869280),408,"US");
("KMLU",3250370,(-9204552),79,"US");
("KMMH",3762717,(-11885016),7128,"US");
("KMMI",3539080,(-8456526),858,"US");
("KMMK",4151275,(-7283126),103,"US");
("KMML",4445856,(-9583810),1180,"US");
("KMMS",3422706,(-9029117),162,"US");
("KMMT",3392742,(-8081127),252,"US");
("KMMU",4079312,(-7441936),187,"US");
("KMMV",4519176,(-12314818),163,"US");
("KMNF",3699393,(-9172291),1181,"US");
("KMNI",3358226,(-8020991),103,"US");
("KMNM",4512322,(-8764442),625,"US");
("KMNN",4061142,(-8307133),993,"US");
("KMNV",3554183,(-8438438),1031,"US");
("KMNZ",3167271,(-9814738),1299,"US");
("KMOB",3070231,(-8825400),219,"US");
("KMOD",3762974,(-12096010),97,"US");
("KMOP",4362154,(-8474432),755,"US");
("KMOR",3617420,(-8338289),1313,"US");
("KMOT",4826525,(-10128874),1716,"US");
("KMOX",4556902,(-9597065),1138,"US");
("KMPE",3280627,(-8912523),456,"US");
("KMPI",3751163,(-12004516),2254,"US");
("KMPJ",3513183,(-9291394),923,"US");
("KMPO",4113404,(-7538155),1916,"US");
("KMPR",3835879,(-9768900),1497,"US");
("KMPV",4420662,(-7256779),1165,"US");
("KMPZ",4095102,(-9151414),734,"US");
("KMQB",4051970,(-9066105),707,"US");
("KMQI",3591397,(-7570075),14,"US");
("KMQJ",3983707,(-8590949),862,"US");
("KMQT",4653178,(-8757564),1419,"US");
("KMQW",3209066,(-8288254),202,"US");
("KMQY",3601784,(-8652872),543,"US");
("KMRB",3939833,(-7799776),557,"US");
("KMRC",3555031,(-8718713),681,"US");
("KMRF",3037807,(-10402550),4849,"US");
("KMRH",3473323,(-7666875),11,"US");
("KMRJ",4289034,(-9024817),1171,"US");
("KMRN",3581331,(-8161513),1270,"US");
("KMRT",4022398,(-8335910),1021,"US");
("KMRY",3659116,(-12185667),257,"US");
("KMSA",3313463,(-9497569),404,"US");
("KMSL",3474902,(-8761702),550,"US");
("KMSN",4314914,(-8934103),887,"US");
("KMSO",4692484,(-11410656),3205,"US");
("KMSP",4487226,(-9323831),841,"US");
("KMSS",4493003,(-7484940),215,"US");
("KMSV",4170855,(-7480196),1403,"US");
("KMSY",2999663,(-9028173),3,"US");
("KMTC",4260154,(-8283734),580,"US");
("KMTH",2472352,(-8105833),5,"US");
("KMTJ",3852983,(-10789274),5759,"US");
("KMTN",3933247,(-7642249),22,"US");
("KMTO",3948127,(-8828969),722,"US");
("KMTP",4107320,(-7192539),6,"US");
("KMTV",3663400,(-8002585),941,"US");
("KMTW",4413420,(-8768377),651,"US");
("KMUI",4043247,(-7657513),489,"US");
("KMUL",3113356,(-8371903),292,"US");
("KMUO",4305656,(-11589037),2996,"US");
("KMUT",4136230,(-9115444),547,"US");
("KMUU",4031447,(-7787900),560,"US");
("KMVC",3145084,(-8735582),419,"US");
("KMVE",4497264,(-9571443),1034,"US");
("KMVI",3752020,(-10605301),7611,"US");
("KMVL",4452953,(-7261380),732,"US");
("KMVM",4470678,(-6748079),96,"US");
("KMVN",3831782,(-8886676),480,"US");
("KMVY",4138602,(-7062005),68,"US");
("KMWA",3774839,(-8901803),472,"US");
("KMWC",4311582,(-8803862),745,"US");
("KMWH",4722566,(-11932650),1185,"US");
("KMWK",3646560,(-8055382),1247,"US");
("KMWL",3278742,(-9806428),974,"US");
("KMWM",4391835,(-9510936),1410,"US");
("KMWO",3952557,(-8440350),650,"US");
("KMXA",3590022,(-9015453),242,"US");
("KMXF",3239136,(-8637311),171,"US");
("KMXO",4222653,(-9116772),833,"US");
("KMYF",3281814,(-11714463),427,"US");
("KMYJ",3915429,(-9182553),823,"US");
("KMYL",4489711,(-11610203),5020,"US");
("KMYR",3369252,(-7893151),24,"US");
("KMYV",3910491,(-12157459),62,"US");
("KMYZ",3986187,(-9663321),1283,"US");
("KMZH",4641526,(-9280889),1076,"US");
("KMZJ",3251636,(-11133312),1892,"US");
("KMZZ",4048346,(-8568692),859,"US");
("KNBC",3247056,(-8073046),37,"US");
("KNBE",3274552,(-9696842),491,"US");
("KNBG",2982351,(-9003730),3,"US");
("KNBJ",3038867,(-8763800),54,"US");
("KNCA",3470461,(-7744846),26,"US");
("KNDY",3833639,(-7703972),20,"US");
("KNDZ",3070296,(-8702297),177,"US");
("KNEL",4003962,(-7436029),103,"US");
("KNEN",3035722,(-8188389),99,"US");
("KNEW",3005282,(-9002992),7,"US");
("KNFD",3050617,(-8765117),149,"US");
("KNFE",3668353,(-7614331),16,"US");
("KNFG",3329553,(-11736191),78,"US");
("KNFJ",3052083,(-8695778),102,"US");
("KNFL",3943559,(-11871397),3934,"US");
("KNFW",3278567,(-9744136),650,"US");
("KNGP",2770074,(-9730159),19,"US");
("KNGS",3060694,(-8694528),150,"US");
("KNGU",3693744,(-7630258),15,"US");
("KNGW",2770611,(-9744306),30,"US");
("KNHK",3827690,(-7642162),39,"US");
("KNHL",3034183,(-8754583),61,"US");
("KNID",3567564,(-11770839),2283,"US");
("KNIP",3023164,(-8168982),22,"US");
("KNJK",3282914,(-11568728),(-42),"US");
("KNJM",3468598,(-7703337),21,"US");
("KNJW",3280376,(-8884096),540,"US");
("KNKL",3042199,(-8689816),39,"US");
("KNKT",3491968,(-7689998),29,"US");
("KNKX",3286455,(-11716481),478,"US");
("KNLC",3636412,(-11996067),234,"US");
("KNMM",3253045,(-8857105),317,"US");
("KNOG",2788485,(-9804874),257,"US");
("KNOW",4814167,(-12342315),13,"US");
("KNPA",3035077,(-8732911),28,"US");
("KNQA",3534809,(-8987885),320,"US");
("KNQB",3056483,(-8781383),129,"US");
("KNQI",2751394,(-9781525),50,"US");
("KNQX",2457250,(-8170010),6,"US");
("KNRA",4819500,(-12263639),199,"US");
("KNRB",3038332,(-8143316),17,"US");
("KNRC",3741883,(-12110794),166,"US");
("KNRN",3985873,(-9989713),2383,"US");
("KNRQ",3062500,(-8714361),151,"US");
("KNRS",3256794,(-11712276),24,"US");
("KNSE",3071526,(-8703300),199,"US");
("KNSI",3324908,(-11947024),506,"US");
("KNTD",3410844,(-11913080),13,"US");
("KNTU",3680545,(-7604994),22,"US");
("KNUC",3301781,(-11860248),182,"US");
("KNUI",3814241,(-7643447),22,"US");
("KNUN",3047000,(-8734694),85,"US");
("KNUQ",3742892,(-12205462),33,"US");
("KNUW",4835127,(-12267283),47,"US");
("KNVD",3784448,(-9430974),892,"US");
("KNVI",3069972,(-8719417),180,"US");
("KNWL",2764167,(-9731667),25,"US");
("KNXP",3430029,(-11617437),2051,"US");
("KNXX",4020854,(-7515707),357,"US");
("KNYG",3849792,(-7730692),11,"US");
("KNYL",3263679,(-11462938),213,"US");
("KNZW",4215734,(-7094544),162,"US");
("KNZX",3068056,(-8690083),150,"US");
("KNZY",3271003,(-11721168),26,"US");
("KOAJ",3482219,(-7762042),94,"US");
("KOAK",3771915,(-12224072),9,"US");
("KOAR",3668410,(-12176665),137,"US");
("KOBE",2725889,(-8085417),34,"US");
("KOBI",3921395,(-7479723),42,"US");
("KOCF",2917882,(-8222306),89,"US");
("KOCH",3158462,(-9470950),355,"US");
("KOCQ",4487505,(-8791487),604,"US");
("KOCW",3556672,(-7705641),38,"US");
("KODO",3191407,(-10239267),3004,"US");
("KODX",4162910,(-9895866),2070,"US");
("KOEA",3868781,(-8755908),414,"US");
("KOEB",4192954,(-8506413),959,"US");
("KOEL",3911668,(-10081812),3045,"US");
("KOEO",4530985,(-9269737),903,"US");
("KOFF",4112946,(-9592469),1052,"US");
("KOFK",4197759,(-9743750),1573,"US");
("KOFP",3771534,(-7744135),208,"US");
("KOGA",4111781,(-10178136),3278,"US");
("KOGB",3346058,(-8086192),195,"US");
("KOGD",4118803,(-11202082),4473,"US");
("KOGM",4685006,(-8936910),669,"US");
("KOGS",4468012,(-7547520),297,"US");
("KOIC",4256008,(-7552451),1025,"US");
("KOIN",3984010,(-10054010),2703,"US");
("KOJA",3555088,(-9866852),1605,"US");
("KOJC",3885322,(-9473757),1096,"US");
("KOKB",3321733,(-11735588),28,"US");
("KOKC",3540570,(-9758895),1295,"US");
("KOKK",4052261,(-8606730),830,"US");
("KOKM",3567520,(-9594869),720,"US");
("KOKS",4140637,(-10236256),3394,"US");
("KOKV",3914875,(-7815146),727,"US");
("KOKZ",3297021,(-8284522),438,"US");
("KOLD",4495366,(-6868277),126,"US");
("KOLE",4223472,(-7837631),2135,"US");
("KOLF",4809799,(-10558407),1986,"US");
("KOLG",4631054,(-9181720),1102,"US");
("KOLM",4697620,(-12290265),209,"US");
("KOLS",3141089,(-11085624),3955,"US");
("KOLU",4145741,(-9734990),1444,"US");
("KOLV",3498699,(-8978693),402,"US");
("KOLY",3872460,(-8818447),482,"US");
("KOLZ",4268413,(-9198003),1076,"US");
("KOMA",4131384,(-9590608),984,"US");
("KOMH",3824541,(-7805070),465,"US");
("KOMK",4847073,(-11951653),1305,"US");
("KOMN",2930082,(-8112022),28,"US");
("KONA",4408280,(-9171944),656,"US");
("KONL",4247445,(-9869345),2031,"US");
("KONM",3402941,(-10690276),4875,"US");
("KONO",4402573,(-11701648),2193,"US");
("KONP",4457874,(-12405966),160,"US");
("KONT",3405494,(-11761617),944,"US");
("KONX",3639443,(-7602020),16,"US");
("KONY",3335790,(-9882023),1275,"US");
("KOOA",4122872,(-9249901),840,"US");
("KOPF",2591265,(-8028867),8,"US");
("KOPL",3056797,(-9209887),75,"US");
("KOPN",3295929,(-8427313),798,"US");
("KOQU",4159056,(-7140556),18,"US");
("KOQW",4205418,(-9074140),769,"US");
("KORB",4802000,(-9286150),1311,"US");
("KORC",4299589,(-9606488),1414,"US");
("KORD",4196899,(-8793153),668,"US");
("KORE",4256124,(-7229029),555,"US");
("KORF",3688799,(-7620625),26,"US");
("KORG",3006245,(-9380792),13,"US");
("KORH",4226733,(-7189079),1009,"US");
("KORK",3482857,(-9225901),545,"US");
("KORL",2854283,(-8133926),112,"US");
("KORS",4871228,(-12291058),25,"US");
("KOSA",3310234,(-9496265),363,"US");
("KOSC",4444304,(-8341326),634,"US");
("KOSH",4398579,(-8855643),808,"US");
("KOSU",4007715,(-8308161),905,"US");
("KOSX",3309533,(-8954755),480,"US");
("KOTG",4365764,(-9558541),1574,"US");
("KOTH",4341472,(-12426063),17,"US");
("KOTM",4111095,(-9245582),845,"US");
("KOTN",3885935,(-8749990),426,"US");
("KOUN",3523626,(-9747581),1182,"US");
("KOVE",3947885,(-12163181),192,"US");
("KOVL",4478084,(-9503872),1076,"US");
("KOVO",3904028,(-8561052),758,"US");
("KOVS",4316039,(-9067902),672,"US");
("KOWA",4412762,(-9326930),1146,"US");
("KOWB",3774890,(-8716776),406,"US");
("KOWD",4219379,(-7117787),49,"US");
("KOWI",3854564,(-9525213),966,"US");
("KOWK",4470890,(-6986875),270,"US");
("KOWX",4103555,(-8399006),763,"US");
("KOXB",3831401,(-7512699),11,"US");
("KOXC",4148614,(-7313688),726,"US");
("KOXD",3949841,(-8478946),1040,"US");
("KOXI",4133645,(-8666225),684,"US");
("KOXR",3420089,(-11921710),43,"US");
("KOXV",4130411,(-9311672),928,"US");
("KOYM",4141248,(-7851048),1934,"US");
("KOZA",3074326,(-10120423),2381,"US");
("KOZR",3128459,(-8571261),301,"US");
("KOZW",4263359,(-8398958),962,"US");
("KPAE",4792241,(-12228589),606,"US");
("KPAH",3705348,(-8878148),410,"US");
("KPAM",3008004,(-8558441),18,"US");
("KPAN",3425501,(-11134803),5157,"US");
("KPAO",3745803,(-12211199),4,"US");
("KPBF",3418276,(-9193564),206,"US");
("KPBG",4466583,(-7347677),233,"US")].
(** openap/data/nav/airports.csv:4002-4501 *)
Definition apts08 : list apt := [
("KPBH",4570489,(-9040337),1497,"US");
("KPBI",2668321,(-8010838),19,"US");
("KPBX",3756032,(-8257928),1473,"US");
("KPCM",2800056,(-8216941),154,"US");
("KPCU",3051877,(-8971351),62,"US");
("KPCW",4151630,(-8287932),590,"US");
("KPCZ",4433336,(-8903289),826,"US");
("KPDC",4302250,(-9112903),661,"US");
("KPDK",3386859,(-8430399),1003,"US");
("KPDT",4569534,(-11885337),1497,"US");
("KPDX",4559515,(-12262147),30,"US");
("KPEA",4140846,(-9294800),885,"US");
("KPEO",4262586,(-7705158),990,"US");
("KPEQ",3139154,(-10351705),2612,"US");
("KPEX",4537406,(-9475254),1180,"US");
("KPEZ",2895945,(-9852180),430,"US");
("KPFC",4520223,(-12396365),5,"US");
("KPFN",3021962,(-8568838),20,"US");
("KPGA",3693282,(-11144956),4313,"US");
("KPGD",2691018,(-8199214),24,"US");
("KPGR",3605863,(-9051329),289,"US");
("KPGV",3562587,(-7738580),27,"US");
("KPHD",4047501,(-8142438),894,"US");
("KPHF",3712500,(-7650139),43,"US");
("KPHG",3973969,(-9932098),1907,"US");
("KPHH",3345579,(-7952683),26,"US");
("KPHK",2679066,(-8069406),18,"US");
("KPHL",3986081,(-7527519),36,"US");
("KPHN",4290463,(-8253533),650,"US");
("KPHP",4405129,(-10160582),2207,"US");
("KPHQ",4266448,(-7085418),61,"US");
("KPHT",3632936,(-8838683),580,"US");
("KPHX",3344086,(-11202979),1135,"US");
("KPIA",4067371,(-8971387),660,"US");
("KPIB",3147608,(-8933707),297,"US");
("KPIE",2792341,(-8269071),10,"US");
("KPIH",4290171,(-11260078),4452,"US");
("KPIL",2617300,(-9734988),19,"US");
("KPIM",3284051,(-8489057),902,"US");
("KPIR",4438489,(-10029382),1742,"US");
("KPIT",4048673,(-8025191),1204,"US");
("KPJC",4080707,(-8016260),901,"US");
("KPJY",3798338,(-8936028),400,"US");
("KPKB",3933784,(-8144341),858,"US");
("KPKD",4690672,(-9508111),1443,"US");
("KPKF",4595941,(-9042410),1500,"US");
("KPKV",2865963,(-9668585),30,"US");
("KPLD",4045144,(-8499621),926,"US");
("KPLK",3662836,(-9323443),938,"US");
("KPLN",4557577,(-8480689),720,"US");
("KPLR",3355246,(-8625213),485,"US");
("KPMB",4894750,(-9724333),795,"US");
("KPMD",3463059,(-11811306),2543,"US");
("KPMH",3884732,(-8284765),663,"US");
("KPMP",2625326,(-8011436),19,"US");
("KPMU",3435675,(-8989426),221,"US");
("KPMV",4095574,(-9591951),1202,"US");
("KPMX",4222034,(-7231353),418,"US");
("KPMZ",3580358,(-7676114),39,"US");
("KPNA",4280414,(-10982483),7086,"US");
("KPNC",3674150,(-9709987),1007,"US");
("KPNE",4007751,(-7502026),121,"US");
("KPNM",4556482,(-9361108),979,"US");
("KPNN",4520409,(-6757341),266,"US");
("KPNS",3048291,(-8719066),121,"US");
("KPNT",4092086,(-8863167),666,"US");
("KPOB",3516316,(-7902279),217,"US");
("KPOC",3409171,(-11779050),1011,"US");
("KPOE",3105011,(-9319383),330,"US");
("KPOF",3678081,(-9032465),331,"US");
("KPOH",4274571,(-9465456),1224,"US");
("KPOU",4162191,(-7389202),165,"US");
("KPOY",4487601,(-10879921),5092,"US");
("KPPA",3561850,(-10099383),3245,"US");
("KPPF",3733769,(-9550623),899,"US");
("KPPO",4156555,(-8673765),812,"US");
("KPPQ",3964278,(-9078359),710,"US");
("KPQI",4668122,(-6804558),534,"US");
("KPQL",3047145,(-8853171),17,"US");
("KPQN",4398690,(-9629958),1736,"US");
("KPRB",3566610,(-12063557),836,"US");
("KPRC",3464576,(-11242876),5042,"US");
("KPRG",3969997,(-8767763),654,"US");
("KPRN",3185146,(-8661647),451,"US");
("KPRO",4183248,(-9416525),1014,"US");
("KPRX",3364482,(-9545443),547,"US");
("KPRZ",3413812,(-10341543),4078,"US");
("KPSB",4089339,(-7809149),1948,"US");
("KPSC",4625596,(-11913349),410,"US");
("KPSF",4242379,(-7330242),1194,"US");
("KPSK",3713212,(-8068688),2105,"US");
("KPSM",4309132,(-7083410),100,"US");
("KPSN",3178871,(-9570626),423,"US");
("KPSO",3727608,(-10706163),7700,"US");
("KPSP",3384068,(-11651745),477,"US");
("KPSX",2873039,(-9626209),14,"US");
("KPTB",3717927,(-7751202),193,"US");
("KPTD",4467302,(-7495340),474,"US");
("KPTG",3674502,(-8304060),1864,"US");
("KPTK",4266465,(-8343313),980,"US");
("KPTN",2970701,(-9134701),8,"US");
("KPTS",3745844,(-9473224),950,"US");
("KPTT",3770916,(-9874685),1952,"US");
("KPTV",3603537,(-11906976),442,"US");
("KPTW",4023907,(-7556278),309,"US");
("KPUB",3828713,(-10451006),4726,"US");
("KPUC",3962658,(-11074592),5957,"US");
("KPUJ",3391664,(-8494782),1289,"US");
("KPUW",4674072,(-11712221),2556,"US");
("KPVB",4269540,(-9044817),1024,"US");
("KPVC",4206983,(-7022628),8,"US");
("KPVD",4171384,(-7143494),55,"US");
("KPVE",3564830,(-8819743),488,"US");
("KPVF",3872159,(-12075988),2585,"US");
("KPVG",3677953,(-7645593),23,"US");
("KPVJ",3471444,(-9722419),968,"US");
("KPVU",4023021,(-11173244),4497,"US");
("KPVW",3416240,(-10172592),3374,"US");
("KPWA",3554436,(-9764547),1299,"US");
("KPWC",4672872,(-9438347),1295,"US");
("KPWD",4879222,(-10452917),2250,"US");
("KPWG",3149379,(-9731834),592,"US");
("KPWK",4212333,(-8790713),647,"US");
("KPWM",4364586,(-7032608),77,"US");
("KPWT",4748333,(-12277138),444,"US");
("KPXE",3251744,(-8376742),418,"US");
("KPYG",3473916,(-8034954),575,"US");
("KPYM",4190424,(-7073652),147,"US");
("KPYN",3712250,(-9071555),467,"US");
("KPYX",3642274,(-10074974),2918,"US");
("KPZQ",4540692,(-8382085),670,"US");
("KRAC",4275439,(-8782034),674,"US");
("KRAL",3395389,(-11745197),818,"US");
("KRAP",4405403,(-10306621),3204,"US");
("KRAS",2781459,(-9709315),4,"US");
("KRAW",3835157,(-9334577),936,"US");
("KRBD",3268732,(-9687643),660,"US");
("KRBE",4257466,(-9957388),2349,"US");
("KRBG",4324509,(-12335587),529,"US");
("KRBL",4015834,(-12225440),349,"US");
("KRBM",3484485,(-9230537),587,"US");
("KRBO",2778214,(-9769458),79,"US");
("KRBW",3291572,(-8064534),101,"US");
("KRCA",4415916,(-10312113),3279,"US");
("KRCK",3063583,(-9698972),474,"US");
("KRCR",4106734,(-8619046),790,"US");
("KRCT",4390618,(-8551667),1055,"US");
("KRCX",4550176,(-9100576),1238,"US");
("KRCZ",3489605,(-7976395),358,"US");
("KRDD",4052034,(-12229485),502,"US");
("KRDG",4038357,(-7597810),344,"US");
("KRDK",4100703,(-9526674),1044,"US");
("KRDM",4424951,(-12116179),3077,"US");
("KRDR",4797821,(-9740081),913,"US");
("KRDU",3587445,(-7880196),435,"US");
("KRED",4519278,(-10926806),5763,"US");
("KREI",3408523,(-11715383),1570,"US");
("KREO",4257194,(-11789333),4053,"US");
("KRFD",4219023,(-8911992),742,"US");
("KRFG",2830083,(-9732722),56,"US");
("KRGK",4458972,(-9249457),780,"US");
("KRHI",4563029,(-8948660),1624,"US");
("KRHP",3519281,(-8387176),1697,"US");
("KRHV",3733651,(-12182260),133,"US");
("KRIC",3751664,(-7732358),167,"US");
("KRID",3975165,(-8485010),1140,"US");
("KRIF",3872823,(-11210384),5301,"US");
("KRIL",3952679,(-10773933),5544,"US");
("KRIR",3398889,(-11741583),764,"US");
("KRIU",3848363,(-12110809),141,"US");
("KRIV",3389643,(-11727063),1535,"US");
("KRIW",4306955,(-10847262),5525,"US");
("KRJD",3897213,(-7587384),64,"US");
("KRKD",4406152,(-6910837),56,"US");
("KRKP",2808913,(-9705335),23,"US");
("KRKR",3502705,(-9462012),451,"US");
("KRKS",4159768,(-10908223),6760,"US");
("KRKW",3591696,(-8469508),1664,"US");
("KRLD",4629996,(-11930845),394,"US");
("KRME",4324508,(-7542297),504,"US");
("KRMG",3434277,(-8515945),644,"US");
("KRMN",3840329,(-7746117),211,"US");
("KRMY",4225174,(-8496187),941,"US");
("KRNC",3569434,(-8585032),1032,"US");
("KRND",2953495,(-9829321),762,"US");
("KRNH",4515270,(-9254273),996,"US");
("KRNM",3304033,(-11692332),1395,"US");
("KRNO",3951385,(-11976921),4415,"US");
("KRNP",4299425,(-8414677),736,"US");
("KRNT",4750047,(-12221685),32,"US");
("KRNV",3376664,(-9075812),140,"US");
("KROA",3732224,(-7998400),1175,"US");
("KROC",4310688,(-7768771),559,"US");
("KROG",3636461,(-9411032),1358,"US");
("KROS",4570412,(-9295616),923,"US");
("KROW",3328609,(-10453690),3671,"US");
("KROX",4886348,(-9570002),1059,"US");
("KRPB",3982333,(-9766016),1537,"US");
("KRPD",4541401,(-9177565),1107,"US");
("KRPH",3310571,(-9855963),1123,"US");
("KRPJ",4189102,(-8908557),781,"US");
("KRPX",4647360,(-10855136),3491,"US");
("KRQB",4372454,(-8551654),990,"US");
("KRQE",3564410,(-10907397),6742,"US");
("KRQO",3548121,(-9800433),1417,"US");
("KRRL",4519574,(-8972517),1318,"US");
("KRRQ",4345642,(-9618063),1363,"US");
("KRRT",4894598,(-9535421),1074,"US");
("KRSL",3887758,(-9881176),1862,"US");
("KRSN",3252146,(-9258833),311,"US");
("KRST",4389492,(-9250693),1317,"US");
("KRSV",3901664,(-8766099),462,"US");
("KRSW",2652649,(-8177002),30,"US");
("KRTN",3673417,(-10451126),6352,"US");
("KRTS",3968339,(-11988160),5050,"US");
("KRUE",3525734,(-9310151),403,"US");
("KRUG",4839345,(-10003008),1548,"US");
("KRUQ",3563862,(-8052284),773,"US");
("KRUT",4352488,(-7294948),787,"US");
("KRVJ",3206059,(-8215757),195,"US");
("KRVL",4067285,(-7763360),819,"US");
("KRVN",3645547,(-8289039),1255,"US");
("KRVS",3603301,(-9598787),638,"US");
("KRWF",4455106,(-9508870),1023,"US");
("KRWI",3584810,(-7789851),159,"US");
("KRWL",4180008,(-10721017),6813,"US");
("KRWN",4109228,(-8662048),711,"US");
("KRWV",3051943,(-9670648),391,"US");
("KRXE",4383965,(-11180421),4858,"US");
("KRYM",4609715,(-9436900),1150,"US");
("KRYN",3214014,(-11117932),2416,"US");
("KRYV",4316522,(-8873077),833,"US");
("KRYY",3401301,(-8460740),1040,"US");
("KRZL",4095341,(-8718149),698,"US");
("KRZN",4581988,(-9237813),989,"US");
("KRZR",3520490,(-8480427),860,"US");
("KRZT",3943494,(-8302951),725,"US");
("KRZZ",3643566,(-7771425),256,"US");
("KSAA",4143844,(-10684270),7012,"US");
("KSAC",3850520,(-12150073),24,"US");
("KSAD",3285944,(-10964263),3176,"US");
("KSAF",3560840,(-10609613),6348,"US");
("KSAN",3273712,(-11720435),17,"US");
("KSAR",3815540,(-8969947),538,"US");
("KSAS",3324059,(-11596064),(-85),"US");
("KSAT",2954275,(-9848554),809,"US");
("KSAV",3212875,(-8121879),51,"US");
("KSAW",4633687,(-8739917),1221,"US");
("KSAZ",4638458,(-9481037),1287,"US");
("KSBA",3442750,(-11985376),13,"US");
("KSBD",3409073,(-11725038),1157,"US");
("KSBM",4376317,(-8785871),754,"US");
("KSBN",4171875,(-8631940),799,"US");
("KSBO",3261439,(-8237749),327,"US");
("KSBP",3523688,(-12065023),212,"US");
("KSBS",4052169,(-10686995),6878,"US");
("KSBU",4359833,(-9409459),1107,"US");
("KSBX",4853835,(-11188142),3443,"US");
("KSBY",3834602,(-7551669),52,"US");
("KSCB",4162020,(-9662595),1325,"US");
("KSCD",3317191,(-8631434),569,"US");
("KSCH",4284690,(-7393380),378,"US");
("KSCK",3790067,(-12124634),30,"US");
("KSCX",3645050,(-8459254),1545,"US");
("KSDA",4074544,(-9541845),971,"US");
("KSDC",4323445,(-7712658),425,"US");
("KSDF",3818700,(-8574879),501,"US");
("KSDL",3361472,(-11191994),1510,"US");
("KSDM",3257157,(-11698432),526,"MX");
("KSDY",4769763,(-10420110),1984,"US");
("KSEA",4746380,(-12230775),433,"US");
("KSEE",3282946,(-11698125),388,"US");
("KSEF",2746225,(-8134718),63,"US");
("KSEG",4082538,(-7686627),450,"US");
("KSEM",3235304,(-8699509),166,"US");
("KSEP",3222029,(-9818116),1321,"US");
("KSEQ",2957361,(-9791806),525,"US");
("KSER",3892872,(-8592096),583,"US");
("KSET",3893351,(-9043082),436,"US");
("KSEZ",3484369,(-11179461),4827,"US");
("KSFB",2878174,(-8125595),55,"US");
("KSFD",4339410,(-9984728),2032,"US");
("KSFF",4767920,(-11733138),1953,"US");
("KSFM",4338389,(-7071416),244,"US");
("KSFO",3762872,(-12239342),13,"US");
("KSFQ",3667473,(-7660353),72,"US");
("KSFY",4204975,(-9011311),616,"US");
("KSFZ",4191664,(-7149583),440,"US");
("KSGF",3725524,(-9340051),1268,"US");
("KSGH",3983507,(-8385139),1051,"US");
("KSGJ",2996742,(-8135071),10,"US");
("KSGR",2963321,(-9565757),82,"US");
("KSGS",4486236,(-9303518),820,"US");
("KSGT",3460418,(-9157848),224,"US");
("KSHD",3825737,(-7890292),1201,"US");
("KSHL",4321363,(-9583670),1419,"US");
("KSHN",4723098,(-12315688),273,"US");
("KSHR",4477704,(-10698775),4021,"US");
("KSHV",3245385,(-9383488),257,"US");
("KSIF",3644127,(-7985829),693,"US");
("KSIK",3689198,(-8956557),315,"US");
("KSIV",3912070,(-8744824),540,"US");
("KSIY",4179152,(-12246547),2648,"US");
("KSJC",3737373,(-12194199),62,"US");
("KSJN",3452618,(-10938272),5736,"US");
("KSJT",3136877,(-10049751),1919,"US");
("KSJX",4569148,(-8557774),669,"US");
("KSKA",4760753,(-11768166),2461,"US");
("KSKF",2939935,(-9858667),691,"US");
("KSKI",4238367,(-9497938),1250,"US");
("KSKX",3645375,(-10568061),7091,"US");
("KSKY",4143288,(-8265838),580,"US");
("KSLB",4260106,(-9524219),1488,"US");
("KSLC",4080744,(-11197694),4227,"US");
("KSLE",4491687,(-12300726),214,"US");
("KSLG",3619869,(-9448920),1193,"US");
("KSLH",4565419,(-8452724),641,"US");
("KSLI",3378381,(-11806028),35,"US");
("KSLJ",3117903,(-8919643),280,"US");
("KSLK",4438021,(-7421327),1663,"US");
("KSLN",3881041,(-9764596),1288,"US");
("KSLO",3864850,(-8896414),573,"US");
("KSLR",3316661,(-9561978),489,"US");
("KSMD",4114091,(-8515711),834,"US");
("KSME",3704898,(-8462103),927,"US");
("KSMF",3870713,(-12158007),27,"US");
("KSMN",4513077,(-11387998),4043,"US");
("KSMO",3401098,(-11845709),177,"US");
("KSMQ",4062691,(-7467525),105,"US");
("KSMS",3399019,(-8036771),182,"US");
("KSMX",3490500,(-12046042),261,"US");
("KSNA",3366780,(-11787383),56,"US");
("KSNC",4138714,(-7250788),416,"US");
("KSNH",3516344,(-8821782),473,"US");
("KSNK",3270340,(-10094879),2430,"US");
("KSNL",3536554,(-9694283),1073,"US");
("KSNS",3666291,(-12161854),85,"US");
("KSNY",4110772,(-10299378),4313,"US");
("KSOA",3059116,(-10064745),2140,"US");
("KSOP",3523238,(-7939545),461,"US");
("KSOW",3426377,(-11001890),6415,"US");
("KSOY",4313965,(-9618763),1448,"US");
("KSPA",3491039,(-8196225),800,"US");
("KSPB",4577789,(-12286379),58,"US");
("KSPF",4448714,(-10379196),3931,"US");
("KSPG",2776318,(-8263363),7,"US");
("KSPH",3298894,(-9340918),218,"US");
("KSPI",3983690,(-8968644),597,"US");
("KSPS",3400389,(-9849950),1019,"US");
("KSPW",4317072,(-9521217),1339,"US");
("KSPX",2951386,(-9505605),22,"US");
("KSQI",4173918,(-8968471),647,"US");
("KSQL",3751442,(-12225239),5,"US");
("KSRB",3604914,(-8553650),1025,"US");
("KSRC",3520256,(-9173974),264,"US");
("KSRE",3528241,(-9667698),1024,"US");
("KSRQ",2740462,(-8256564),31,"US");
("KSRR",3345930,(-10554733),6814,"US");
("KSSC",3396170,(-8048151),242,"US");
("KSSF",2933855,(-9848094),577,"US");
("KSSI",3114523,(-8139936),19,"US");
("KSSN",4272358,(-7688891),647,"US");
("KSSQ",4573511,(-9192560),1232,"US");
("KSTC",4555394,(-9406934),1031,"US");
("KSTE",4453843,(-8953660),1110,"US");
("KSTF",3344075,(-8884883),332,"US");
("KSTJ",3978457,(-9490691),826,"US");
("KSTK",4062309,(-10326666),4038,"US");
("KSTL",3875390,(-9037916),604,"US");
("KSTP",4494116,(-9306779),705,"US");
("KSTQ",4112864,(-8880640),653,"US");
("KSTS",3851528,(-12281261),128,"US");
("KSUA",2718202,(-8023147),18,"US");
("KSUC",4439364,(-10441306),4932,"US");
("KSUD",3579421,(-9665624),900,"US");
("KSUE",4483692,(-8742475),724,"US");
("KSUN",4351224,(-11430376),5320,"US");
("KSUS",3865770,(-9065974),463,"US");
("KSUT",3392511,(-7807932),25,"US");
("KSUU",3824329,(-12195696),62,"US");
("KSUW",4668916,(-9210031),674,"US");
("KSUX",4240919,(-9639770),1098,"US");
("KSVC",3263242,(-10816526),5446,"US");
("KSVE",4037979,(-12057748),4149,"US");
("KSVH",3576614,(-8096562),965,"US");
("KSVN",3201061,(-8116432),42,"US");
("KSWF",4150081,(-7413072),491,"US");
("KSWI",3362950,(-9658772),745,"US");
("KSWO",3617231,(-9708686),1000,"US");
("KSWT",4086928,(-9710956),1505,"US");
("KSWW",3247605,(-10046946),2380,"US");
("KSXL",3822832,(-8087395),1820,"US");
("KSYF",3976380,(-10180036),3411,"US");
("KSYI",3556697,(-8644258),800,"US");
("KSYL",3581837,(-12074574),630,"US");
("KSYN",4447906,(-9301606),920,"US");
("KSYR",4310820,(-7612615),421,"US");
("KSYV",3155409,(-8389683),403,"US");
("KSZL",3871359,(-9355198),870,"US");
("KSZN",3406127,(-11991858),50,"US");
("KSZP",3434509,(-11906478),245,"US");
("KSZT",4829316,(-11656614),2131,"US");
("KSZY",3520952,(-8850040),610,"US");
("KTAD",3726086,(-10435324),5762,"US");
("KTAN",4187413,(-7101981),42,"US");
("KTAZ",3953784,(-8932751),622,"US");
("KTBN",3774860,(-9214640),1159,"US");
("KTBR",3248559,(-8174347),187,"US");
("KTCC",3517488,(-10361115),4065,"US");
("KTCL",3321015,(-8761917),170,"US");
("KTCM",4715151,(-12247655),322,"US");
("KTCS",3324322,(-10727706),4853,"US");
("KTCY",3769048,(-12144922),193,"US");
("KTDF",3627953,(-7899186),610,"US");
("KTDO",4647544,(-12281501),374,"US");
("KTDW",3517809,(-10182644),3649,"US");
("KTDZ",4157105,(-8349012),622,"US");
("KTEB",4083868,(-7406036),9,"US");
("KTEL",3802302,(-8669794),659,"US");
("KTEW",4256578,(-8443064),919,"US");
("KTEX",3795632,(-10792065),9078,"US");
("KTGC",3592594,(-8885019),359,"US");
("KTGI",3782100,(-7599833),5,"US");
("KTHA",3538809,(-8624357),1082,"US");
("KTHM",4757341,(-11528919),2467,"US");
("KTHP",4365706,(-10821307),4592,"US");
("KTHV",3992347,(-7687688),480,"US");
("KTIF",4196559,(-10057745),2926,"US");
("KTIK",3542899,(-9738211),1291,"US");
("KTIP",4030254,(-8814806),737,"US");
("KTIW",4727474,(-12257688),292,"US");
("KTIX",2852462,(-8079690),34,"US");
("KTKC",4425083,(-9561133),1340,"US");
("KTKI",3318756,(-9659011),584,"US");
("KTKO",3980778,(-9822166),1859,"US");
("KTKV",4546914,(-8981347),1486,"US");
("KTKX",3621721,(-9004057),262,"US");
("KTLH",3039131,(-8435654),81,"US");
("KTLR",3616057,(-11933012),271,"US");
("KTMA",3143369,(-8349472),355,"US");
("KTMB",2565264,(-8044008),8,"US");
("KTME",2981409,(-9589802),168,"US");
("KTMK",4542430,(-12381894),36,"US");
("KTNP",3413435,(-11595344),1887,"US");
("KTNT",2586178,(-8091294),13,"US");
("KTNU",4168042,(-9302814),953,"US");
("KTNX",3781403,(-11678879),5549,"US");
("KTOA",3380811,(-11834577),103,"US");
("KTOB",4402321,(-9283243),1305,"US");
("KTOC",3458489,(-8330097),996,"US");
("KTOI",3186518,(-8601485),398,"US");
("KTOL",4158139,(-8383070),684,"US");
("KTOP",3907479,(-9562704),881,"US");
("KTOR",4206716,(-10416396),4205,"US");
("KTPA",2796329,(-8254236),26,"US");
("KTPF",2791127,(-8245375),8,"US");
("KTPH",3806753,(-11709272),5426,"US");
("KTPL",3115999,(-9741216),682,"US");
("KTQE",4176846,(-9618120),1027,"US");
("KTQH",3593442,(-9500428),873,"US");
("KTQK",3848115,(-10088503),2963,"US");
("KTRI",3646534,(-8241911),1519,"US");
("KTRK",3932484,(-12015273),5900,"US");
("KTRL",3271538,(-9626711),474,"US");
("KTRM",3363914,(-11615641),(-115),"US");
("KTRX",4008944,(-9359074),757,"US");
("KTSO",4055933,(-8108446),1163,"US");
("KTSP",3513814,(-11844476),4001,"US");
("KTTA",3557391,(-7910525),247,"US");
("KTTD",4554919,(-12241179),39,"US");
("KTTF",4193357,(-8343819),616,"US");
("KTTN",4026975,(-7482158),213,"US");
("KTTS",2863275,(-8070606),10,"US");
("KTUL",3621394,(-9588131),677,"US");
("KTUP",3427704,(-8876992),346,"US");
("KTUS",3212337,(-11094791),2643,"US");
("KTVB",3712897,(-9208676),1220,"US");
("KTVC",4474116,(-8559041),624,"US");
("KTVF",4807095,(-9619336),1116,"US");
("KTVI",3089521,(-8388755),264,"US");
("KTVK",4069070,(-9290416),1028,"US");
("KTVL",3890531,(-11999198),6264,"US");
("KTVR",3235848,(-9102781),86,"US");
("KTVY",4061971,(-11235086),4321,"US");
("KTWF",4248126,(-11450322),4151,"US");
("KTWM",4704730,(-9175310),1080,"US");
("KTWT",3753530,(-8795585),372,"US");
("KTXK",3344625,(-9400136),390,"US");
("KTYL",3444540,(-11012267),5820,"US");
("KTYQ",4003822,(-8625153),922,"US");
("KTYR",3234594,(-9541069),544,"US");
("KTYS",3580433,(-8400547),981,"US");
("KTZR",3989478,(-8314213),905,"US");
("KTZT",4188306,(-9228667),771,"US");
("KTZV",3672451,(-8565624),1036,"US");
("KUAO",4525394,(-12276883),200,"US");
("KUBE",4550601,(-9198898),1241,"US");
("KUBS",3347151,(-8838103),188,"US");
("KUBX",3807345,(-9142827),1023,"US");
("KUCP",4102246,(-8041813),1072,"US")].
(** openap/data/nav/airports.csv:4502-5001 *)
Definition apts09 : list apt := [
("KUCY",3637497,(-8898636),335,"US");
("KUDD",3375142,(-11628221),73,"US");
("KUDG",3444234,(-7989286),192,"US");
("KUES",4304394,(-8824972),911,"US");
("KUGN",4241585,(-8787561),727,"US");
("KUIL",4793356,(-12456995),194,"US");
("KUIN",3993622,(-9119951),769,"US");
("KUIZ",4265934,(-8297016),610,"US");
("KUKF",3621509,(-8109836),1300,"US");
("KUKI",3913189,(-12320243),614,"US");
("KUKL",3831003,(-9572501),1173,"US");
("KUKT",4043582,(-7538765),524,"US");
("KULM",4432460,(-9450684),1011,"US");
("KULS",3761620,(-10137384),3067,"US");
("KUMP",3993956,(-8604881),811,"US");
("KUNI",3920813,(-8223787),766,"US");
("KUNO",3688543,(-9190254),1228,"US");
("KUNU",4342493,(-8871655),934,"US");
("KUNV",4084436,(-7785713),1239,"US");
("KUOS",3520270,(-8590433),1953,"US");
("KUOX",3438444,(-8954607),452,"US");
("KUSE",4161269,(-8413023),779,"US");
("KUTA",3469643,(-9035095),194,"US");
("KUTS",3075373,(-9558635),363,"US");
("KUUU",4152758,(-7128306),171,"US");
("KUUV",3823042,(-9117108),933,"US");
("KUVA",2921788,(-9974707),942,"US");
("KUWA",4227935,(-7221383),483,"US");
("KUWL",3987597,(-8533359),1088,"US");
("KUYF",3993239,(-8346911),1081,"US");
("KUZA",3498041,(-8105896),667,"US");
("KVAD",3098183,(-8319081),233,"US");
("KVAY",3994104,(-7485226),53,"US");
("KVBG",3475229,(-12060147),369,"US");
("KVBT",3635133,(-9421928),1296,"US");
("KVBW",3836972,(-7896322),1165,"US");
("KVCB",3837241,(-12196612),117,"US");
("KVCT",2885046,(-9692508),115,"US");
("KVCV",3462165,(-11738678),2885,"US");
("KVDF",2801212,(-8234770),22,"US");
("KVDI",3218762,(-8237926),275,"US");
("KVEL",4044686,(-10951068),5278,"US");
("KVER",3895220,(-9268210),715,"US");
("KVES",4020426,(-8453998),1007,"US");
("KVGT",3621330,(-11520337),2205,"US");
("KVHN",3105419,(-10479125),3957,"US");
("KVIH",3812481,(-9177666),1148,"US");
("KVIQ",4455858,(-9051874),1237,"US");
("KVIS",3632500,(-11940078),295,"US");
("KVJI",3668367,(-8203965),2087,"US");
("KVKS",3223234,(-9092926),106,"US");
("KVKX",3874522,(-7696073),115,"US");
("KVLA",3899759,(-8916729),537,"US");
("KVLD",3079046,(-8327522),203,"US");
("KVLL",4254292,(-8318449),729,"US");
("KVMR",4276860,(-9694044),1147,"US");
("KVNC",2706712,(-8244464),18,"US");
("KVNW",4086467,(-8461668),785,"US");
("KVNY",3421891,(-11849124),802,"US");
("KVOK",4393903,(-9027024),912,"US");
("KVPC",3411525,(-8484929),759,"US");
("KVPS",3048879,(-8655221),87,"US");
("KVPZ",4145241,(-8701624),771,"US");
("KVQQ",3023502,(-8187411),81,"US");
("KVRB",2766038,(-8041689),24,"US");
("KVSF",4333892,(-7252126),577,"US");
("KVTA",4002432,(-8247010),884,"US");
("KVTI",4221952,(-9203539),845,"US");
("KVTN",4286190,(-10055202),2591,"US");
("KVUJ",3540957,(-8015687),609,"US");
("KVUO",4562110,(-12266283),82,"US");
("KVVS",3995755,(-7966146),1267,"US");
("KVVV",4531026,(-9642574),1100,"US");
("KVYS",4136009,(-8915318),654,"US");
("KWAL",3792707,(-7547094),40,"US");
("KWAY",3989972,(-8013917),1065,"US");
("KWBW",4129442,(-7585615),545,"US");
("KWDG",3638721,(-9779108),1167,"US");
("KWDR",3398866,(-8367357),943,"US");
("KWEA",3275026,(-9768242),990,"US");
("KWHP",3426358,(-11841803),1003,"US");
("KWJF",3473800,(-11823004),2351,"US");
("KWLD",3717727,(-9703611),1160,"US");
("KWLW",3952267,(-12221998),139,"US");
("KWMC",4090600,(-11781394),4308,"US");
("KWRB",3265353,(-8360337),294,"US");
("KWRI",4000452,(-7459726),130,"US");
("KWRL",4397154,(-10795372),4227,"US");
("KWSD",3234306,(-10641250),3934,"US");
("KWST",4134560,(-7181059),81,"US");
("KWVI",3692904,(-12179579),163,"US");
("KWVL",4452652,(-6968063),333,"US");
("KWWD",3900296,(-7490563),23,"US");
("KWWR",3644426,(-9952092),2188,"US");
("KWYS",4467807,(-11112478),6644,"US");
("KXBP",3318084,(-9782826),852,"US");
("KXFL",2946074,(-8121221),33,"US");
("KXLL",4056658,(-7549427),398,"US");
("KXMR",2847601,(-8057891),10,"US");
("KXNA",3629320,(-9431198),1287,"US");
("KXNO",3360086,(-8109714),321,"US");
("KXTA",3724822,(-11580026),4596,"US");
("KXVG",4699347,(-9420983),1334,"US");
("KYIP",4223063,(-8353985),716,"US");
("KYKM",4657256,(-12055953),1095,"US");
("KYKN",4292430,(-9739435),1306,"US");
("KYNG",4127288,(-8069235),1196,"US");
("KZEF",3627780,(-8079231),1068,"US");
("KZER",4070641,(-7638367),1734,"US");
("KZPH",2823417,(-8215329),90,"US");
("KZUN",3508122,(-10879943),6454,"US");
("KZZV",3993905,(-8189585),900,"US");
("LAGJ",4190653,1959122,23,"AL");
("LAKO",4063559,2073892,665,"AL");
("LAKV",4078139,1989063,135,"AL");
("LATI",4142698,1971894,126,"AL");
("LBBG",4255983,2750160,135,"BG");
("LBGO",4315300,2569795,285,"BG");
("LBPD",4207467,2483878,597,"BG");
("LBSF",4269826,2339477,1741,"BG");
("LBSZ",4238775,2565256,558,"BG");
("LBWN",4323344,2780983,230,"BG");
("LCLK",3486568,3361326,8,"CY");
("LCPH",3472226,3247189,41,"CY");
("LCRA",3459417,3297350,76,"CY");
("LDDP",4303333,1742889,7,"HR");
("LDDU",4256986,1824681,527,"HR");
("LDLO",4457950,1438911,154,"HR");
("LDOC",4554391,1862471,299,"HR");
("LDOS",4546630,1879638,290,"HR");
("LDPL",4489313,1390359,274,"HR");
("LDRG",4537660,1449653,951,"HR");
("LDRI",4522566,1456143,278,"HR");
("LDSB",4328086,1667505,1776,"HR");
("LDSP",4353205,1628558,79,"HR");
("LDVA",4630194,1637750,548,"HR");
("LDZA",4573188,1605197,353,"HR");
("LDZD",4411639,1533569,289,"HR");
("LDZU",4456498,1576047,2462,"BA");
("LEAB",3894797,(-187906),2301,"ES");
("LEAL",3828452,(-57500),141,"ES");
("LEAM",3683972,(-238726),70,"ES");
("LEAP",4226575,310379,30,"ES");
("LEAS",4356657,(-604764),416,"ES");
("LEAT",4155024,65273,700,"ES");
("LEAX",3680369,(-413987),97,"ES");
("LEBA",3783447,(-485408),296,"ES");
("LEBB",4330635,(-292494),137,"ES");
("LEBE",3827528,(-295801),1788,"ES");
("LEBG",4235049,(-362239),2961,"ES");
("LEBL",4128776,208484,14,"ES");
("LEBZ",3889875,(-683462),609,"ES");
("LECD",4238471,185673,3585,"ES");
("LECF",4174644,155355,2356,"ES");
("LECI",4256900,(-73312),7362,"ES");
("LECN",4000232,2649,13,"ES");
("LECO",4329478,(-838325),323,"ES");
("LECQ",3808175,(-71666),128,"ES");
("LECS",4020748,6018,0,"ES");
("LECX",3873405,(-14340),1950,"ES");
("LEDA",4173566,52448,1151,"ES");
("LEFM",4089234,(-424164),3284,"ES");
("LEGA",3713906,(-363542),2297,"ES");
("LEGE",4189480,275826,403,"ES");
("LEGR",3718861,(-379372),1859,"ES");
("LEGT",4028620,(-373407),2029,"ES");
("LEGY",4181538,(-247184),3339,"ES");
("LEHC",4208243,(-32658),1768,"ES");
("LEHO",3883311,(-12097),336,"ES");
("LEIB",3886695,135884,20,"ES");
("LEIG",4158841,165079,1162,"ES");
("LEIZ",3851374,(-337305),2902,"ES");
("LEJR",3673497,(-606481),93,"ES");
("LELA",3874604,(-352270),2644,"ES");
("LELC",3778675,(-81389),11,"ES");
("LELL",4152344,210062,465,"ES");
("LELM",3889813,(-111604),7598,"ES");
("LELN",4258195,(-566528),3006,"ES");
("LEMB",4212959,(-373493),2968,"ES");
("LEMD",4048715,(-356281),1998,"ES");
("LEMG",3669100,(-450778),52,"ES");
("LEMH",3985126,421632,298,"ES");
("LEMO",3715965,(-562289),285,"ES");
("LEMP",3779256,(-109979),129,"ES");
("LEMR",4342916,(-583667),541,"ES");
("LEMU",3844352,(-47670),365,"ES");
("LENA",4202305,47696,2566,"ES");
("LEOC",3993798,(-350791),2405,"ES");
("LEPA",3954710,271082,24,"ES");
("LEPP",4277954,(-165325),1503,"ES");
("LEPZ",3891558,(-419512),1850,"ES");
("LERE",3947600,(-103961),11,"ES");
("LERI",3794931,(-123519),250,"ES");
("LERJ",4246357,(-233193),1156,"ES");
("LERM",4086106,(-324808),3097,"ES");
("LERO",4311259,(-747457),1444,"ES");
("LERS",4113964,116684,0,"ES");
("LERT",3664721,(-636996),86,"ES");
("LESA",4094203,(-550904),2595,"ES");
("LESB",3959640,269915,135,"ES");
("LESL",3985358,424794,196,"ES");
("LESO",4335036,(-179740),14,"ES");
("LEST",4291177,(-842043),1169,"ES");
("LESU",4233597,140652,2625,"ES");
("LETC",4152944,(-492840),0,"ES");
("LETI",4024278,(-479294),1401,"ES");
("LETL",4042381,(-121962),0,"ES");
("LETO",4048477,(-346070),2025,"ES");
("LETZ",4178820,(-486031),2756,"ES");
("LEVB",3957623,312399,236,"ES");
("LEVC",3949644,(-50026),225,"ES");
("LEVD",4169700,(-486475),2775,"ES");
("LEVS",4037112,(-379393),2267,"ES");
("LEVT",4287009,(-273703),1682,"ES");
("LEVX",4222128,(-862966),855,"ES");
("LEWL",3999931,381973,42,"ES");
("LEXJ",4343078,(-383392),16,"ES");
("LEZG",4168021,(-108237),862,"ES");
("LEZL",3741788,(-591208),111,"ES");
("LFAB",4988364,108592,344,"FR");
("LFAC",5095875,194514,10,"FR");
("LFAD",4943528,280691,315,"FR");
("LFAE",5006565,141978,311,"FR");
("LFAF",4960044,363072,256,"FR");
("LFAG",4986867,301990,295,"FR");
("LFAI",4859387,300192,428,"FR");
("LFAJ",4871390,845,581,"FR");
("LFAK",5104046,255285,0,"FR");
("LFAL",4769449,185,121,"FR");
("LFAM",5042195,158860,31,"FR");
("LFAN",4889139,(-50672),833,"FR");
("LFAO",4854824,(-39366),718,"FR");
("LFAP",4948390,436903,410,"FR");
("LFAQ",4997152,268951,364,"FR");
("LFAR",4967282,256397,358,"FR");
("LFAS",4892963,(-13856),512,"FR");
("LFAT",5052399,161247,35,"FR");
("LFAU",4962195,(-182779),456,"FR");
("LFAV",5032785,345535,177,"FR");
("LFAW",4941257,589482,1299,"FR");
("LFAX",4853907,52935,886,"FR");
("LFAY",4987551,237923,208,"FR");
("LFBA",4417770,58043,204,"FR");
("LFBC",4452807,(-113794),84,"FR");
("LFBD",4481922,(-72896),166,"FR");
("LFBE",4482527,50495,171,"FR");
("LFBF",4354913,135729,535,"FR");
("LFBG",4564840,(-32439),102,"FR");
("LFBH",4617968,(-121101),74,"FR");
("LFBI",4657962,30012,423,"FR");
("LFBJ",4590226,91655,902,"FR");
("LFBK",4623098,236125,1497,"FR");
("LFBL",4585249,117254,1300,"FR");
("LFBM",4391072,(-53178),203,"FR");
("LFBN",4630834,(-41210),203,"FR");
("LFBO",4364411,134593,499,"FR");
("LFBP",4338766,(-43326),616,"FR");
("LFBR",4345143,125771,622,"FR");
("LFBS",4436796,(-112497),98,"FR");
("LFBT",4316599,(-1275),1260,"FR");
("LFBU",4573050,20713,436,"FR");
("LFBX",4520041,80577,328,"FR");
("LFBY",4369092,(-106251),108,"FR");
("LFBZ",4346827,(-153727),245,"FR");
("LFCA",4678470,55094,207,"FR");
("LFCB",4280357,60060,2028,"FR");
("LFCC",4435556,146750,912,"FR");
("LFCD",4475798,(-106998),64,"FR");
("LFCE",4617672,196869,1207,"FR");
("LFCF",4467393,178260,1084,"FR");
("LFCG",4301221,110015,1368,"FR");
("LFCH",4459448,(-112060),52,"FR");
("LFCI",4391308,210103,563,"FR");
("LFCJ",4548287,42257,128,"FR");
("LFCK",4356266,228210,788,"FR");
("LFCL",4359007,149697,459,"FR");
("LFCM",4399539,317653,2606,"FR");
("LFCN",4376506,(-3146),302,"FR");
("LFCO",4316217,(-56797),984,"FR");
("LFCP",4556325,(-50709),115,"FR");
("LFCQ",4377027,200580,581,"FR");
("LFCR",4441368,247266,1910,"FR");
("LFCS",4470272,(-59239),190,"FR");
("LFCT",4696402,(-15862),341,"FR");
("LFCU",4553690,241630,2410,"FR");
("LFCV",4437290,202304,1096,"FR");
("LFCW",4439903,75389,190,"FR");
("LFCX",4408584,113457,243,"FR");
("LFCY",4563181,(-98010),72,"FR");
("LFCZ",4414548,(-118088),164,"FR");
("LFDA",4371194,(-25222),259,"FR");
("LFDB",4402881,137370,351,"FR");
("LFDC",4527803,(-45464),148,"FR");
("LFDE",4541944,206276,1859,"FR");
("LFDF",4485418,16909,282,"FR");
("LFDG",4388545,188220,446,"FR");
("LFDH",4367697,59920,411,"FR");
("LFDI",4497858,(-13878),157,"FR");
("LFDJ",4309086,169002,1114,"FR");
("LFDK",4549120,(-108010),7,"FR");
("LFDL",4703667,9624,315,"FR");
("LFDM",4450055,19333,105,"FR");
("LFDN",4589617,(-99726),56,"FR");
("LFDP",4595719,(-130476),20,"FR");
("LFDQ",4328168,52406,984,"FR");
("LFDR",4456708,(-6202),43,"FR");
("LFDS",4479060,124304,978,"FR");
("LFDT",4321641,8382,1076,"FR");
("LFDU",4519522,(-88810),105,"FR");
("LFDV",4627518,19308,499,"FR");
("LFDW",4658116,63872,440,"FR");
("LFDX",4447719,100655,692,"FR");
("LFDY",4487836,(-48433),240,"FR");
("LFDZ",4510917,121317,499,"FR");
("LFEA",4732378,(-320500),170,"FR");
("LFEB",4844195,(-210891),393,"FR");
("LFEC",4846054,(-506856),137,"FR");
("LFED",4805712,(-292881),406,"FR");
("LFEF",4734055,94078,177,"FR");
("LFEG",4659957,160554,663,"FR");
("LFEH",4747849,238890,630,"FR");
("LFEI",4761980,277649,558,"FR");
("LFEJ",4683915,161780,541,"FR");
("LFEK",4688539,204061,531,"FR");
("LFEL",4661710,108339,377,"FR");
("LFEM",4796369,268163,308,"FR");
("LFEN",4726559,69840,299,"FR");
("LFEP",4722440,456337,1411,"FR");
("LFEQ",4748187,(-310378),37,"FR");
("LFER",4769601,(-204188),222,"FR");
("LFES",4804627,(-366867),575,"FR");
("LFET",4755206,521376,938,"FR");
("LFEU",4886865,505568,909,"FR");
("LFEV",4743238,561161,679,"FR");
("LFEW",4724151,427018,1722,"FR");
("LFEX",4859061,624111,961,"FR");
("LFEY",4672214,(-239634),79,"FR");
("LFEZ",4872728,620589,1253,"FR");
("LFFB",4835177,241827,420,"FR");
("LFFC",4908529,169658,512,"FR");
("LFFD",4889370,123942,498,"FR");
("LFFE",4904832,235997,335,"FR");
("LFFG",4876073,328409,538,"FR");
("LFFH",4907324,336452,728,"FR");
("LFFI",4740663,(-118517),111,"FR");
("LFFJ",4838642,514056,1024,"FR");
("LFFK",4644187,(-78612),85,"FR");
("LFFL",4852203,164035,509,"FR");
("LFFM",4765420,199126,413,"FR");
("LFFN",4843152,446488,381,"FR");
("LFFP",4815570,218677,384,"FR");
("LFFQ",4849492,235386,453,"FR");
("LFFR",4806542,441849,938,"FR");
("LFFT",4836267,572154,1224,"FR");
("LFFU",4687080,237170,551,"FR");
("LFFV",4719699,206938,430,"FR");
("LFFW",4693160,(-133226),184,"FR");
("LFFX",4656565,497748,682,"FR");
("LFFY",4930739,163439,308,"FR");
("LFFZ",4871242,377023,354,"FR");
("LFGA",4810257,735689,627,"FR");
("LFGB",4773717,742969,787,"FR");
("LFGD",4692317,575914,876,"FR");
("LFGE",4749898,389841,823,"FR");
("LFGF",4700173,489031,656,"FR");
("LFGG",4769805,683262,1368,"FR");
("LFGH",4736237,291107,580,"FR");
("LFGI",4738815,494827,1585,"FR");
("LFGJ",4703309,541534,645,"FR");
("LFGK",4799147,338522,732,"FR");
("LFGL",4667689,547823,761,"FR");
("LFGM",4660437,433369,1030,"FR");
("LFGN",4646649,413883,997,"FR");
("LFGO",4829669,324931,236,"FR");
("LFGP",4798208,378283,351,"FR");
("LFGQ",4748459,434757,1053,"FR");
("LFGR",4915371,594042,804,"FR");
("LFGS",4948416,557900,1148,"FR");
("LFGT",4871587,707095,873,"FR");
("LFGU",4912832,710097,853,"FR");
("LFGV",4935503,621088,518,"FR");
("LFGW",4912322,546148,1230,"FR");
("LFGX",4676090,581992,1745,"FR");
("LFGY",4826862,701410,1184,"FR");
("LFGZ",4714389,496262,768,"FR");
("LFHA",4551451,326872,1240,"FR");
("LFHC",4587802,518387,702,"FR");
("LFHD",4439554,471570,197,"FR");
("LFHE",4506465,510395,594,"FR");
("LFHF",4445025,433416,361,"FR");
("LFHG",4549349,453111,1296,"FR");
("LFHH",4546125,482762,719,"FR");
("LFHI",4568919,544857,804,"FR");
("LFHJ",4565814,491441,650,"FR");
("LFHL",4470760,388955,3330,"FR");
("LFHM",4582041,665122,4839,"FR");
("LFHN",4612624,580542,1624,"FR");
("LFHO",4453784,437158,923,"FR");
("LFHP",4508629,375826,2731,"FR");
("LFHQ",4506985,299149,3218,"FR");
("LFHR",4532435,335921,1483,"FR");
("LFHS",4620602,529201,857,"FR");
("LFHT",4552255,374909,1847,"FR");
("LFHU",4508877,608641,6091,"FR");
("LFHV",4592351,463604,1076,"FR");
("LFHW",4614420,471388,705,"FR");
("LFHX",4625153,358425,1040,"FR");
("LFHY",4653379,341533,915,"FR");
("LFHZ",4594669,664001,1737,"FR");
("LFIB",4478217,95867,791,"FR");
("LFID",4391590,38646,453,"FR");
("LFIF",4382787,273906,1686,"FR");
("LFIG",4417977,251206,2024,"FR");
("LFIH",4526995,2262,285,"FR");
("LFIK",4523764,26292,351,"FR");
("LFIL",4391158,(-95506),255,"FR");
("LFIM",4311010,62518,1325,"FR");
("LFIR",4348337,197624,643,"FR");
("LFIS",5088024,173383,442,"FR");
("LFIT",4361367,172187,525,"FR");
("LFIV",4537996,(-112235),16,"FR");
("LFIX",4333609,(-142705),607,"FR");
("LFIY",4596664,(-52866),246,"FR");
("LFJA",4807871,504823,1001,"FR");
("LFJB",4689823,(-70239),576,"FR");
("LFJC",4743478,350843,713,"FR");
("LFJE",4449288,540214,2883,"FR");
("LFJH",4320000,105605,810,"FR");
("LFJI",4582134,(-108054),17,"FR");
("LFJL",4897000,623627,870,"FR");
("LFJR",4755906,(-32334),194,"FR");
("LFJS",4934432,327841,509,"FR");
("LFJU",4670982,293765,746,"FR");
("LFJY",4901828,586376,866,"FR");
("LFKA",4562848,633272,1035,"FR");
("LFKB",4256334,947917,25,"FR");
("LFKC",4254117,879283,208,"FR");
("LFKD",4525718,680235,4277,"FR");
("LFKE",4502888,530665,872,"FR");
("LFKF",4149453,908600,87,"FR");
("LFKG",4204884,939983,177,"FR");
("LFKH",4551548,567882,960,"FR");
("LFKJ",4191187,879497,18,"FR");
("LFKL",4570973,469744,1040,"FR");
("LFKM",4560987,430407,1266,"FR");
("LFKO",4166123,888139,12,"FR");
("LFKP",4555886,538793,1050,"FR");
("LFKS",4193637,940526,27,"FR");
("LFKT",4229427,918499,1131,"FR");
("LFKX",4540905,657626,5650,"FR");
("LFKY",4569144,569126,751,"FR");
("LFKZ",4638339,576829,2057,"FR");
("LFLA",4784298,349610,523,"FR");
("LFLB",4564505,587971,779,"FR");
("LFLC",4578482,315075,1089,"FR");
("LFLD",4705657,235988,529,"FR");
("LFLE",4556423,597194,983,"FR");
("LFLG",4521570,584323,722,"FR");
("LFLH",4683249,481613,623,"FR");
("LFLI",4619446,626100,1616,"FR");
("LFLJ",4539908,663700,6593,"FR");
("LFLK",4627533,566307,1754,"FR");
("LFLL",4574659,508596,820,"FR");
("LFLM",4630061,479495,728,"FR");
("LFLN",4642203,400712,796,"FR");
("LFLO",4604941,399823,1106,"FR");
("LFLP",4592346,609231,1520,"FR");
("LFLQ",4458665,474293,240,"FR");
("LFLR",4524778,482647,508,"FR");
("LFLS",4536278,530983,1302,"FR");
("LFLT",4635406,256438,771,"FR");
("LFLU",4491223,496810,525,"FR");
("LFLV",4615988,340172,817,"FR");
("LFLW",4489786,241695,2096,"FR");
("LFLX",4685056,171917,529,"FR");
("LFLY",4573501,494093,659,"FR");
("LFLZ",4571105,419912,1096,"FR");
("LFMA",4351138,536174,366,"FR");
("LFMC",4338867,638020,264,"FR");
("LFMD",4355443,694953,12,"FR");
("LFME",4385843,441641,197,"FR");
("LFMF",4361085,669247,741,"FR");
("LFMG",4340716,198760,1470,"FR");
("LFMH",4555120,429514,1325,"FR");
("LFMI",4353777,491330,81,"FR");
("LFMK",4321714,229266,433,"FR");
("LFML",4344913,519730,74,"FR");
("LFMN",4364659,720258,12,"FR");
("LFMO",4414890,485974,197,"FR");
("LFMP",4275417,286173,143,"FR");
("LFMQ",4325711,577661,1391,"FR");
("LFMR",4438734,660410,3714,"FR");
("LFMS",4406350,414003,668,"FR");
("LFMT",4358615,395575,16,"FR");
("LFMU",4332402,334239,54,"FR");
("LFMV",4391081,490322,124,"FR");
("LFMW",4331384,191471,551,"FR");
("LFMX",4405523,598786,1508,"FR");
("LFMY",4361570,510447,197,"FR");
("LFMZ",4317589,273877,206,"FR")].
(** openap/data/nav/airports.csv:5002-5501 *)
Definition apts10 : list apt := [
("LFNA",4445002,603410,1985,"FR");
("LFNB",4450467,352648,3361,"FR");
("LFNC",4469705,660088,2962,"FR");
("LFND",4427267,465224,143,"FR");
("LFNE",4365760,500214,245,"FR");
("LFNF",4373390,578926,902,"FR");
("LFNG",4361344,406693,4,"FR");
("LFNH",4403172,507828,393,"FR");
("LFNJ",4451798,574327,2696,"FR");
("LFNL",4379941,378575,597,"FR");
("LFNO",4428309,345296,3054,"FR");
("LFNP",4350373,341673,321,"FR");
("LFNQ",4254714,211609,5528,"ES");
("LFNR",4353158,518013,103,"FR");
("LFNS",4428852,592903,1771,"FR");
("LFNT",4399289,475997,148,"FR");
("LFNU",4407750,439447,885,"FR");
("LFNV",4434130,491027,472,"FR");
("LFNW",4290880,205907,1608,"FR");
("LFNX",4362899,315074,1237,"FR");
("LFNZ",4377572,489414,459,"FR");
("LFOA",4704795,261177,580,"FR");
("LFOB",4945831,210385,358,"FR");
("LFOC",4805959,136134,433,"FR");
("LFOD",4725739,(-12459),269,"FR");
("LFOE",4901831,120671,464,"FR");
("LFOF",4844627,10425,479,"FR");
("LFOG",4874899,(-59665),656,"FR");
("LFOH",4952652,7757,311,"FR");
("LFOI",5013827,182865,220,"FR");
("LFOJ",4798391,174556,412,"FR");
("LFOK",4877959,415841,587,"FR");
("LFOL",4876112,66394,787,"FR");
("LFOM",4920125,(-151235),91,"FR");
("LFON",4870837,136428,443,"FR");
("LFOO",4647479,(-172841),105,"FR");
("LFOP",4937947,116845,512,"FR");
("LFOQ",4768161,120231,398,"FR");
("LFOR",4845709,151415,509,"FR");
("LFOS",4983355,64999,250,"FR");
("LFOT",4742179,72341,356,"FR");
("LFOU",4707651,(-88091),443,"FR");
("LFOV",4803679,(-74924),330,"FR");
("LFOW",4981982,321078,325,"FR");
("LFOX",4837885,206837,489,"FR");
("LFOY",4954699,36576,423,"FR");
("LFOZ",4789415,215734,396,"FR");
("LFPA",4917002,230765,148,"FR");
("LFPB",4896361,242035,218,"FR");
("LFPC",4924902,250417,291,"FR");
("LFPD",4910353,55850,554,"FR");
("LFPE",4892705,282931,217,"FR");
("LFPF",4884106,191341,360,"FR");
("LFPG",4899566,255216,392,"FR");
("LFPH",4889730,260268,207,"FR");
("LFPI",4883394,227495,105,"FR");
("LFPK",4883762,300627,470,"FR");
("LFPL",4882034,263283,354,"FR");
("LFPM",4860648,266329,302,"FR");
("LFPN",4875115,209846,537,"FR");
("LFPO",4871997,231693,291,"FR");
("LFPP",4911044,274269,387,"FR");
("LFPQ",4870570,290862,371,"FR");
("LFPT",4908777,202740,325,"FR");
("LFPU",4834391,280418,253,"FR");
("LFPV",4877412,218928,584,"FR");
("LFPX",4884014,197612,427,"FR");
("LFPY",4858919,232092,270,"FR");
("LFPZ",4881600,206069,371,"FR");
("LFQA",4920674,414981,313,"FR");
("LFQB",4832949,401533,388,"FR");
("LFQC",4859344,653641,790,"FR");
("LFQD",5032044,279779,337,"FR");
("LFQE",4921642,566834,770,"FR");
("LFQF",4697187,426057,997,"FR");
("LFQG",4700650,310425,602,"FR");
("LFQH",4784808,458281,905,"FR");
("LFQI",5022267,313656,256,"FR");
("LFQJ",5030647,402654,448,"FR");
("LFQK",4890739,436016,390,"FR");
("LFQL",5046207,281541,166,"FR");
("LFQM",4720308,607625,1271,"FR");
("LFQN",5072854,222762,248,"FR");
("LFQO",5069356,307379,68,"FR");
("LFQP",4876087,718799,1016,"FR");
("LFQQ",5056290,308301,156,"FR");
("LFQR",4849435,375721,266,"FR");
("LFQS",5033519,298946,173,"FR");
("LFQT",5061183,263435,60,"FR");
("LFQU",4895046,707331,841,"FR");
("LFQV",4978647,463743,492,"FR");
("LFQW",4763773,619475,1249,"FR");
("LFQX",4811387,481570,1145,"FR");
("LFQZ",4877781,671940,722,"FR");
("LFRB",4844339,(-443837),325,"FR");
("LFRC",4965220,(-148686),459,"FR");
("LFRD",4859806,(-208268),216,"FR");
("LFRE",4729014,(-235184),105,"FR");
("LFRF",4888027,(-157146),45,"FR");
("LFRG",4937053,13871,479,"FR");
("LFRH",4775625,(-345919),122,"FR");
("LFRI",4670332,(-138856),299,"FR");
("LFRJ",4852673,(-416936),347,"FR");
("LFRK",4918095,(-46642),256,"FR");
("LFRL",4827860,(-445091),259,"FR");
("LFRM",4794185,19799,194,"FR");
("LFRN",4806991,(-174050),124,"FR");
("LFRO",4875661,(-348273),291,"FR");
("LFRP",4800218,(-238441),235,"FR");
("LFRQ",4796629,(-417613),297,"FR");
("LFRS",4714160,(-161954),89,"FR");
("LFRT",4853314,(-286738),452,"FR");
("LFRU",4859768,(-382291),277,"FR");
("LFRV",4771794,(-272495),439,"FR");
("LFRW",4866246,(-140807),22,"FR");
("LFRZ",4730911,(-216443),13,"FR");
("LFSA",4727169,607725,807,"FR");
("LFSB",4761770,750986,885,"FR");
("LFSC",4791135,739566,693,"FR");
("LFSD",4727657,509359,726,"FR");
("LFSE",4821176,644739,1040,"FR");
("LFSF",4906166,612997,629,"FR");
("LFSG",4832415,605182,1084,"FR");
("LFSH",4879056,781382,491,"FR");
("LFSI",4864027,488431,458,"FR");
("LFSJ",4966213,504638,512,"FR");
("LFSK",4870231,468290,410,"FR");
("LFSM",4748527,678026,1041,"FR");
("LFSN",4868657,622587,751,"FR");
("LFSO",4857271,594892,1105,"FR");
("LFSP",4690007,632462,2683,"FR");
("LFSQ",4764021,700447,1207,"FR");
("LFST",4853118,761600,504,"FR");
("LFSU",4796969,529543,1378,"FR");
("LFSW",4900411,409304,289,"FR");
("LFSX",4779159,633454,912,"FR");
("LFSZ",4821290,595101,1076,"FR");
("LFTF",4325073,611516,269,"FR");
("LFTH",4309446,614123,6,"FR");
("LFTM",4445401,572831,2318,"FR");
("LFTN",4424028,401201,1624,"FR");
("LFTP",4387020,616887,2522,"FR");
("LFTQ",4773916,(-118535),322,"FR");
("LFTW",4376929,441556,308,"FR");
("LFTZ",4320302,647611,58,"FR");
("LFVM",4709611,(-5638680),10,"PM");
("LFVP",4675844,(-5618559),27,"PM");
("LFXA",4597842,532678,823,"FR");
("LFXB",4570055,(-63739),118,"FR");
("LFXC",4823116,584612,1237,"FR");
("LFXI",4405714,547952,2736,"FR");
("LFXM",4911303,436037,387,"FR");
("LFXQ",4794347,(-218911),499,"FR");
("LFXU",4899971,193179,89,"FR");
("LFYD",4808222,564906,1280,"FR");
("LFYG",5014046,325755,312,"FR");
("LFYK",4945957,541672,909,"FR");
("LFYL",4769173,653969,1040,"FR");
("LFYM",4866251,385062,328,"FR");
("LFYR",4731786,168435,289,"FR");
("LFYS",4244485,200148,4330,"ES");
("LFYT",4974306,320386,295,"FR");
("LGAD",3793433,2128783,55,"GR");
("LGAG",3860273,2133395,154,"GR");
("LGAL",4085249,2594171,24,"GR");
("LGAV",3792351,2394326,308,"GR");
("LGAX",4065607,2248032,27,"GR");
("LGBL",3921764,2277867,83,"GR");
("LGEL",3807617,2355600,143,"GR");
("LGHI",3833646,2613914,18,"GR");
("LGIK",3768819,2634335,79,"GR");
("LGIO",3970500,2081389,1558,"GR");
("LGIR",3534104,2516118,115,"GR");
("LGKA",4045282,2126762,2167,"GR");
("LGKC",3626811,2301320,1045,"GR");
("LGKF",3812917,2049279,59,"GR");
("LGKL",3708081,2202263,26,"GR");
("LGKM",4097799,2433515,203,"GR");
("LGKO",3680364,2708364,412,"GR");
("LGKP",3542751,2713511,66,"GR");
("LGKR",3961228,1990921,6,"GR");
("LGKS",3542154,2690465,35,"GR");
("LGKV",4090630,2460498,18,"GR");
("LGKZ",4029172,2183372,2059,"GR");
("LGLE",3718861,2679698,39,"GR");
("LGLM",3990717,2522435,14,"GR");
("LGLR",3964766,2244859,241,"GR");
("LGMG",3798037,2335863,12,"GR");
("LGMK",3744369,2534446,405,"GR");
("LGML",3669546,2447058,12,"GR");
("LGMT",3907499,2658451,60,"GR");
("LGNX",3707755,2536830,10,"GR");
("LGPA",3701979,2513330,121,"GR");
("LGPL",3658374,2637303,165,"GR");
("LGPZ",3892060,2074997,11,"GR");
("LGRD",3638111,2809556,204,"GR");
("LGRP",3640034,2806887,17,"GR");
("LGRX",3816615,2142831,46,"GR");
("LGSA",3553708,2413399,490,"GR");
("LGSK",3916993,2350050,54,"GR");
("LGSM",3768966,2689957,19,"GR");
("LGSO",3742791,2495009,236,"GR");
("LGSP",3697190,2252178,500,"GR");
("LGSR",3640767,2547364,127,"GR");
("LGST",3521019,2609245,376,"GR");
("LGSV",3947657,2276190,146,"GR");
("LGSY",3898103,2448596,44,"GR");
("LGTG",3834329,2354843,485,"GR");
("LGTL",3517933,2532146,1180,"GR");
("LGTP",3752250,2239937,2113,"GR");
("LGTS",4053028,2296761,22,"GR");
("LGTT",3810213,2377862,785,"GR");
("LGZA",3776084,2088050,14,"GR");
("LHBP",4744945,1921981,495,"HU");
("LHDC",4748139,2160302,359,"HU");
("LHFM",4758695,1684302,440,"HU");
("LHKE",4692361,1973547,376,"HU");
("LHNY",4798579,2169701,338,"HU");
("LHOY",4631106,1876826,295,"HU");
("LHPP",4599556,1823833,1000,"HU");
("LHPR",4763031,1779995,424,"HU");
("LHSA",4708619,1796378,919,"HU");
("LHSM",4669728,1715492,408,"HU");
("LHSN",4711446,2023078,322,"HU");
("LHTL",4735447,1897071,341,"HU");
("LHZA",4689072,1678746,633,"HU");
("LIAF",4293930,1270850,728,"IT");
("LIAP",4238622,1330893,2210,"IT");
("LIAQ",4148922,1371595,361,"IT");
("LIAU",4111588,1418457,64,"IT");
("LIBA",4154438,1569928,183,"IT");
("LIBC",3900606,1707794,521,"IT");
("LIBD",4113340,1674254,177,"IT");
("LIBF",4143933,1553133,265,"IT");
("LIBG",4053163,1739950,215,"IT");
("LIBJ",3864409,1604500,1706,"IT");
("LIBN",4024668,1812626,156,"IT");
("LIBP",4242259,1417412,48,"IT");
("LIBR",4067355,1792808,47,"IT");
("LIBV",4077500,1692217,1187,"IT");
("LICA",3890699,1622859,39,"IT");
("LICB",3698669,1459532,757,"IT");
("LICC",3746563,1505269,39,"IT");
("LICD",3549664,1260829,70,"IT");
("LICG",3681413,1195690,635,"IT");
("LICJ",3817431,1308653,65,"IT");
("LICP",3811602,1331272,345,"IT");
("LICR",3808080,1564517,96,"IT");
("LICT",3791882,1247582,24,"IT");
("LICZ",3740322,1490855,79,"IT");
("LIDA",4588583,1151000,3409,"IT");
("LIDB",4616770,1224391,1240,"IT");
("LIDC",4508070,1215263,0,"IT");
("LIDE",4469988,1065751,152,"IT");
("LIDF",4382152,1302157,52,"IT");
("LIDG",4439432,1185263,62,"IT");
("LIDH",4567095,1149660,336,"IT");
("LIDJ",4582894,1301692,30,"IT");
("LIDK",4595134,1281526,125,"IT");
("LIDL",4512992,1129383,30,"IT");
("LIDM",4513210,1079157,82,"IT");
("LIDP",4431823,1082960,2214,"IT");
("LIDR",4436340,1221743,0,"IT");
("LIDT",4602591,1112477,609,"IT");
("LIDU",4483141,1086982,69,"IT");
("LIDV",4479027,1166507,20,"IT");
("LIDW",4570606,1253413,17,"IT");
("LIEA",4061985,828339,87,"IT");
("LIED",3936700,896994,100,"IT");
("LIEE",3926081,904347,13,"IT");
("LIEO",4089241,950569,37,"IT");
("LIER",3989580,863867,36,"IT");
("LIET",3992145,967723,23,"IT");
("LILA",4492775,862826,299,"IT");
("LILB",4577168,916327,1260,"IT");
("LILC",4580865,877213,797,"IT");
("LILE",4550139,809892,925,"IT");
("LILH",4495621,901431,423,"IT");
("LILI",4531042,841420,417,"IT");
("LILM",4510561,845627,378,"IT");
("LILN",4574856,888754,1050,"IT");
("LILO",4615000,971147,901,"IT");
("LILQ",4398320,1013961,13,"IT");
("LILR",4516772,999835,161,"IT");
("LILV",4571704,959235,755,"IT");
("LIMA",4508731,759669,943,"IT");
("LIMB",4554516,920227,484,"IT");
("LIMC",4564546,871872,767,"IT");
("LIME",4567823,970153,779,"IT");
("LIMF",4521559,765057,989,"IT");
("LIMG",4405091,811848,148,"IT");
("LIMJ",4441544,882416,13,"IT");
("LIML",4545622,927587,353,"IT");
("LIMN",4554420,866493,586,"IT");
("LIMP",4481766,1029313,161,"IT");
("LIMR",4477473,878690,607,"IT");
("LIMS",4492083,970545,456,"IT");
("LIMW",4573791,735762,1791,"IT");
("LIMZ",4453963,761619,1267,"IT");
("LINL",4035981,1829319,59,"IT");
("LIPA",4602333,1258389,410,"IT");
("LIPB",4645435,1132485,789,"IT");
("LIPC",4423036,1229012,18,"IT");
("LIPD",4602888,1318386,305,"IT");
("LIPE",4454112,1127290,123,"IT");
("LIPF",4481528,1160790,21,"IT");
("LIPG",4590600,1359229,207,"IT");
("LIPH",4564464,1217963,59,"IT");
("LIPI",4597354,1303510,179,"IT");
("LIPK",4419977,1205673,97,"IT");
("LIPL",4544165,1025421,333,"IT");
("LIPM",4463456,1081191,184,"IT");
("LIPN",4547082,1092166,286,"IT");
("LIPO",4543806,1031773,344,"IT");
("LIPQ",4582796,1344736,37,"IT");
("LIPR",4402853,1259696,41,"IT");
("LIPS",4568257,1206821,137,"IT");
("LIPU",4539247,1184366,44,"IT");
("LIPV",4542532,1238279,13,"IT");
("LIPX",4538732,1087633,239,"IT");
("LIPY",4360691,1334935,49,"IT");
("LIPZ",4549412,1233773,7,"IT");
("LIQB",4345696,1184320,814,"IT");
("LIQL",4382888,1057277,39,"IT");
("LIQN",4242260,1285201,1276,"IT");
("LIQS",4326122,1125483,634,"IT");
("LIQW",4408317,998833,47,"IT");
("LIRA",4180806,1258883,427,"IT");
("LIRE",4166115,1243276,39,"IT");
("LIRF",4181552,1222636,15,"IT");
("LIRG",4199689,1274100,289,"IT");
("LIRH",4163971,1330266,645,"IT");
("LIRI",4061426,1490305,131,"IT");
("LIRJ",4276604,1023743,31,"IT");
("LIRL",4154676,1290065,93,"IT");
("LIRM",4105419,1406651,29,"IT");
("LIRN",4087979,1427754,294,"IT");
("LIRP",4367308,1038323,6,"IT");
("LIRQ",4380507,1119741,142,"IT");
("LIRS",4274936,1106120,15,"IT");
("LIRU",4195696,1250001,55,"IT");
("LIRV",4243144,1205726,990,"IT");
("LIRZ",4308851,1251065,693,"IT");
("LIVD",4672611,1221793,3982,"IT");
("LJCE",4589981,1551461,510,"SI");
("LJDI",4568476,1399949,1420,"SI");
("LJLJ",4623249,1444039,1273,"SI");
("LJMB",4648915,1567709,876,"SI");
("LJPZ",4547718,1361198,7,"SI");
("LJSG",4647627,1511211,1645,"SI");
("LKBA",4879014,1688752,524,"CZ");
("LKBC",4927933,1448777,1414,"CZ");
("LKBE",4973959,1463939,1322,"CZ");
("LKBO",4966980,1728931,774,"CZ");
("LKBR",5056496,1633847,1341,"CZ");
("LKBU",4997507,1417289,1397,"CZ");
("LKCE",5071148,1456286,928,"CZ");
("LKCH",5047253,1346340,1131,"CZ");
("LKCM",4924052,1655229,925,"CZ");
("LKCR",4993354,1577394,977,"CZ");
("LKCS",4894634,1441041,1417,"CZ");
("LKCT",4968957,1567465,1945,"CZ");
("LKCV",4994430,1537360,793,"CZ");
("LKDK",5041470,1583116,925,"CZ");
("LKER",4980362,1303216,1568,"CZ");
("LKFR",4958890,1837411,1440,"CZ");
("LKHB",4959910,1554280,1519,"CZ");
("LKHC",5035966,1557281,918,"CZ");
("LKHD",5065296,1507676,1479,"CZ");
("LKHK",5026299,1583808,791,"CZ");
("LKHN",4954417,1770023,797,"CZ");
("LKHR",5061933,1472621,912,"CZ");
("LKHS",4903620,1448844,1620,"CZ");
("LKHV",4984710,1389041,1213,"CZ");
("LKJA",5033478,1594989,889,"CZ");
("LKJC",5043266,1532715,862,"CZ");
("LKJH",4914930,1496727,1683,"CZ");
("LKJI",4942028,1562912,1820,"CZ");
("LKKA",4937065,1611262,1833,"CZ");
("LKKB",5011702,1453250,939,"CZ");
("LKKC",4987005,1276833,2076,"CZ");
("LKKL",5011526,1408447,1420,"CZ");
("LKKM",4928254,1741330,616,"CZ");
("LKKO",4999806,1517117,925,"CZ");
("LKKR",5007550,1769032,1227,"CZ");
("LKKT",4941822,1331626,1299,"CZ");
("LKKU",4902163,1743293,580,"CZ");
("LKKV",5020574,1290721,1988,"CZ");
("LKKY",4898392,1712103,685,"CZ");
("LKLB",5077207,1502020,1328,"CZ");
("LKLN",4967180,1326593,1187,"CZ");
("LKLT",5012929,1452027,912,"CZ");
("LKMB",5040073,1489399,778,"CZ");
("LKMH",5053834,1499776,800,"CZ");
("LKMI",5029902,1729209,1374,"CZ");
("LKMK",4979769,1668296,1322,"CZ");
("LKML",5023729,1490481,652,"CZ");
("LKMO",5052000,1368121,1085,"CZ");
("LKMR",4992635,1272084,1768,"CZ");
("LKMT",4968530,1809319,843,"CZ");
("LKNA",4917305,1611163,1548,"CZ");
("LKNM",5036808,1611367,1000,"CZ");
("LKNY",5016945,1505023,610,"CZ");
("LKOL",4958833,1720536,869,"CZ");
("LKOT",4920133,1751704,603,"CZ");
("LKPA",4973301,1626205,1978,"CZ");
("LKPC",5030539,1391733,1207,"CZ");
("LKPD",5001401,1572116,741,"CZ");
("LKPI",4957999,1575759,1742,"CZ");
("LKPJ",4945065,1712774,702,"CZ");
("LKPL",4972273,1344817,1374,"CZ");
("LKPM",4971532,1408950,1528,"CZ");
("LKPN",4994024,1554859,1250,"CZ");
("LKPO",4942137,1738908,676,"CZ");
("LKPR",5010182,1422632,1246,"CZ");
("LKPS",4991708,1337356,1433,"CZ");
("LKPV",4941787,1498415,1902,"CZ");
("LKRA",5040347,1375117,882,"CZ");
("LKRK",5009466,1368694,1272,"CZ");
("LKRO",5041503,1421928,728,"CZ");
("LKRY",4975185,1358402,1328,"CZ");
("LKSA",4956559,1304416,1404,"CZ");
("LKSB",4948995,1704788,836,"CZ");
("LKSK",4983127,1599977,1601,"CZ");
("LKSN",5021546,1408361,1079,"CZ");
("LKSO",4924346,1471291,1335,"CZ");
("LKSR",4908605,1407251,1564,"CZ");
("LKST",4924462,1388935,1377,"CZ");
("LKSU",4995791,1701299,1099,"CZ");
("LKSZ",5032963,1425383,764,"CZ");
("LKTA",4939659,1470525,1440,"CZ");
("LKTB",4915287,1667587,777,"CZ");
("LKTC",4998572,1442149,1026,"CZ");
("LKTD",4979741,1269933,1640,"CZ");
("LKTO",5008502,1294398,2135,"CZ");
("LKTV",4944428,1461132,1614,"CZ");
("LKUL",5069761,1396435,787,"CZ");
("LKUO",4998183,1642279,1341,"CZ");
("LKVL",4972969,1487714,1420,"CZ");
("LKVM",4993100,1617952,987,"CZ");
("LKVO",5021956,1437867,919,"CZ");
("LKVP",5046739,1620025,1325,"CZ");
("LKVR",5062556,1564074,1610,"CZ");
("LKVY",4929494,1702233,915,"CZ");
("LKZA",4992841,1806893,793,"CZ");
("LKZB",4981736,1519932,1617,"CZ");
("LKZD",5031911,1350531,882,"CZ");
("LKZM",5008576,1643959,1407,"CZ");
("LKZN",4881718,1606006,826,"CZ");
("LLBG",3201303,3486038,135,"IL");
("LLBS",3129038,3471923,656,"IL");
("LLEK",3184689,3481846,193,"IL");
("LLES",3244156,3500126,95,"PS");
("LLET",2955370,3495550,42,"IL");
("LLEY",3061633,3520214,(-164),"IL");
("LLHA",3281644,3504169,28,"IL");
("LLHS",3176399,3472072,148,"IL");
("LLHZ",3217916,3483923,121,"IL");
("LLIB",3298716,3556812,922,"IL");
("LLMG",3259738,3521611,200,"PS");
("LLMZ",3132287,3538756,(-1266),"IL");
("LLNV",3120442,3499506,1330,"IL");
("LLOV",2992716,3493173,1492,"IL");
("LLRD",3266593,3516366,185,"IL");
("LLRM",3076932,3465310,2126,"IL");
("LLSD",3210774,3477796,43,"IL");
("LMML",3585645,1447886,300,"MT");
("LOAA",4842009,1521852,2867,"AT");
("LOAB",4892426,1529337,1720,"AT");
("LOAD",4816161,1558467,1061,"AT");
("LOAG",4844813,1563027,1022,"AT");
("LOAL",4823438,1666451,495,"AT");
("LOAN",4784389,1625306,896,"AT");
("LOAR",4866445,1682312,603,"AT");
("LOAS",4810471,1693260,623,"AT");
("LOAU",4840877,1618691,685,"AT");
("LOAV",4796076,1625083,765,"AT");
("LOGF",4706502,1608146,830,"AT");
("LOGG",4715119,1631527,950,"AT");
("LOGI",4749614,1449306,2283,"AT");
("LOGK",4745707,1532625,1690,"AT");
("LOGL",4755604,1532112,2575,"AT");
("LOGM",4778689,1530469,2820,"AT");
("LOGO",4747734,1400514,2142,"AT");
("LOGP",4739045,1610990,1340,"AT");
("LOGT",4738140,1496436,2060,"AT");
("LOGW",4717398,1566498,1297,"AT");
("LOIH",4738317,969681,1352,"AT");
("LOIJ",4752241,1244578,2198,"AT");
("LOIK",4756706,1213237,1589,"AT");
("LOIR",4746873,1068773,2811,"AT");
("LOKF",4670552,1407569,1706,"AT");
("LOKG",4653086,1433041,1498,"AT");
("LOKH",4693113,1443217,2019,"AT");
("LOKL",4679938,1288346,2088,"AT");
("LOKM",4697610,1436972,2120,"AT");
("LOKN",4658200,1362535,1800,"AT");
("LOKW",4681496,1482626,1460,"AT");
("LOLC",4790059,1394256,1742,"AT");
("LOLE",4833726,1398762,887,"AT")].
(** openap/data/nav/airports.csv:5502-6001 *)
Definition apts11 : list apt := [
("LOLF",4850204,1440401,2236,"AT");
("LOLG",4810467,1495405,828,"AT");
("LOLH",4814000,1434049,1168,"AT");
("LOLK",4820348,1333198,1378,"AT");
("LOLM",4786949,1412739,1510,"AT");
("LOLO",4830365,1432680,827,"AT");
("LOLS",4840636,1344539,1070,"AT");
("LOLT",4805142,1466852,1050,"AT");
("LOLU",4795097,1387021,1670,"AT");
("LOLW",4818296,1403148,1043,"AT");
("LOSM",4713173,1369191,3642,"AT");
("LOWG",4700433,1543598,1115,"AT");
("LOWI",4725883,1133091,1906,"AT");
("LOWK",4664594,1432069,1470,"AT");
("LOWL",4823240,1416739,978,"AT");
("LOWS",4780472,1299717,1411,"DE");
("LOWW",4812282,1653337,600,"AT");
("LOWZ",4729489,1279028,2470,"AT");
("LOXA",4752957,1412421,2000,"AT");
("LOXN",4783995,1622908,830,"AT");
("LOXT",4831519,1611019,575,"AT");
("LOXZ",4720075,1472647,2220,"AT");
("LPAR",3887185,(-903923),11,"PT");
("LPAV",4066026,(-874564),26,"PT");
("LPAZ",3698500,(-2517333),308,"PT");
("LPBE",3807079,(-788478),617,"PT");
("LPBG",4185029,(-670957),2241,"PT");
("LPBJ",3806345,(-793443),636,"PT");
("LPBR",4158505,(-845017),247,"PT");
("LPCH",4172015,(-745222),1181,"PT");
("LPCO",4016104,(-847211),587,"PT");
("LPCS",3873264,(-935797),326,"PT");
("LPCV",4026187,(-748414),1572,"PT");
("LPEV",3852777,(-789020),807,"PT");
("LPFC",3807788,(-823596),262,"PT");
("LPFL",3946152,(-3113312),112,"PT");
("LPFR",3701729,(-798609),24,"PT");
("LPGR",3909082,(-2803768),86,"PT");
("LPHR",3851986,(-2872453),118,"PT");
("LPIN",4097330,(-865163),10,"PT");
("LPJF",3976405,(-881749),164,"PT");
("LPJO",4131787,(-745368),2559,"PT");
("LPLA",3877595,(-2710555),180,"PT");
("LPLG",3712295,(-868202),17,"PT");
("LPMA",3268900,(-1678409),192,"PT");
("LPMF",3997030,(-690167),1056,"ES");
("LPMI",4146941,(-721768),1329,"PT");
("LPMR",3981777,(-888779),187,"PT");
("LPMT",3870500,(-903717),46,"PT");
("LPOV",4092683,(-864690),56,"PT");
("LPPD",3774624,(-2571090),259,"PT");
("LPPI",3855183,(-2845272),109,"PT");
("LPPM",3715056,(-858863),4,"PT");
("LPPR",4126333,(-868524),228,"PT");
("LPPS",3308696,(-1635048),340,"PT");
("LPPT",3876569,(-914438),374,"PT");
("LPPV",3718485,(-747032),10,"PT");
("LPSC",3911353,(-936628),157,"PT");
("LPSI",3793702,(-880460),98,"PT");
("LPSJ",3866826,(-2818288),311,"PT");
("LPST",3883679,(-934688),440,"PT");
("LPTN",3947207,(-838571),266,"PT");
("LPVL",4126336,(-849882),787,"PT");
("LPVR",4127031,(-772217),1805,"PT");
("LPVZ",4072004,(-788850),2060,"PT");
("LQBK",4495259,1729421,400,"BA");
("LQMO",4329287,1784029,156,"BA");
("LQSA",4382997,1831714,1708,"BA");
("LQTZ",4445983,1870933,784,"BA");
("LRAR",4617737,2124921,352,"RO");
("LRBC",4653271,2690593,607,"RO");
("LRBM",4765966,2345827,605,"RO");
("LRBS",4449922,2608276,297,"RO");
("LRCK",4437774,2849059,353,"RO");
("LRCL",4678352,2367429,1036,"RO");
("LRCS",4542361,2224194,866,"RO");
("LRCT",4651257,2387927,1083,"RO");
("LRCV",4431794,2387294,626,"RO");
("LRIA",4718571,2761556,397,"RO");
("LROD",4701744,2190014,465,"RO");
("LROP",4456452,2607661,314,"RO");
("LRSB",4578576,2407857,1496,"RO");
("LRSM",4769244,2288194,405,"RO");
("LRSV",4769522,2635056,1375,"RO");
("LRTC",4507121,2871154,200,"RO");
("LRTM",4646528,2440000,963,"RO");
("LRTR",4581514,2131676,348,"RO");
("LSGB",4626102,698374,1312,"CH");
("LSGC",4708115,678744,3368,"CH");
("LSGE",4675558,707039,2293,"CH");
("LSGG",4622579,609094,1410,"CH");
("LSGK",4648547,723937,3307,"CH");
("LSGL",4654902,661707,2041,"CH");
("LSGN",4695541,686102,1427,"CH");
("LSGP",4640453,625577,1350,"CH");
("LSGR",4661056,767421,2600,"CH");
("LSGS",4621667,731449,1585,"CH");
("LSGT",4659749,709403,2257,"CH");
("LSGY",4675967,661052,1421,"CH");
("LSMA",4693667,828333,1460,"CH");
("LSMC",4649452,828511,4412,"CH");
("LSMD",4740198,863209,1470,"CH");
("LSME",4708345,829507,1400,"CH");
("LSMF",4707089,906217,1485,"CH");
("LSMI",4667030,786969,1893,"CH");
("LSML",4629127,899356,850,"CH");
("LSMM",4674341,809507,1879,"CH");
("LSMP",4683467,690105,1465,"CH");
("LSPA",4757430,904234,1364,"CH");
("LSPD",4744040,748547,1771,"CH");
("LSPF",4768945,852328,1522,"CH");
("LSPG",4690440,825821,1826,"CH");
("LSPH",4751163,877063,1496,"CH");
("LSPK",4728055,887976,2480,"CH");
("LSPL",4718030,773613,1545,"CH");
("LSPM",4651556,867758,3241,"CH");
("LSPN",4722810,807663,1591,"CH");
("LSPO",4733881,787984,1368,"CH");
("LSPU",4647689,825880,4356,"CH");
("LSPV",4720439,886414,1337,"CH");
("LSTA",4630468,780849,2487,"CH");
("LSTB",4697870,712884,1414,"CH");
("LSTO",4691503,661306,2402,"CH");
("LSTR",4659297,640272,2178,"CH");
("LSTS",4650348,740372,3304,"CH");
("LSTZ",4655603,738026,3060,"CH");
("LSZA",4599853,890776,915,"CH");
("LSZB",4691941,749068,1672,"CH");
("LSZC",4697049,838504,1475,"CH");
("LSZD",4616050,878139,656,"CH");
("LSZE",4701598,947913,1617,"CH");
("LSZF",4744296,822908,1300,"CH");
("LSZG",4717977,741118,1411,"CH");
("LSZH",4747558,853595,1416,"CH");
("LSZI",4750830,794621,1774,"CH");
("LSZJ",4718265,708402,2247,"CH");
("LSZK",4737805,875385,1751,"CH");
("LSZL",4616556,887399,650,"CH");
("LSZN",4723829,851136,1928,"CH");
("LSZO",4718661,820409,2245,"CH");
("LSZP",4708608,728642,1437,"CH");
("LSZR",4748613,955028,1306,"CH");
("LSZS",4652695,987807,5600,"CH");
("LSZT",4752205,899708,1539,"CH");
("LSZU",4726798,830096,2372,"CH");
("LSZV",4750838,925915,1656,"CH");
("LSZW",4675887,759659,2211,"CH");
("LSZX",4717387,903841,1358,"CH");
("LSZY",4740893,704900,1427,"CH");
("LTAB",3993103,3273010,2694,"TR");
("LTAC",4011517,3298123,3125,"TR");
("LTAD",3995685,3267120,2653,"TR");
("LTAE",4006623,3255499,2767,"TR");
("LTAF",3697482,3526802,65,"TR");
("LTAG",3699372,3541216,238,"TR");
("LTAH",3873725,3058783,3310,"TR");
("LTAI",3691548,3079475,177,"TR");
("LTAJ",3695008,3746155,2315,"TR");
("LTAK",3657150,3614799,25,"TR");
("LTAN",3796456,3255633,3381,"TR");
("LTAO",3834675,3824431,3016,"TR");
("LTAP",4082174,3550786,1758,"TR");
("LTAR",3979750,3689667,5236,"TR");
("LTAT",3842248,3808098,2828,"TR");
("LTAU",3876720,3547866,3463,"TR");
("LTAV",3945746,3134691,3185,"TR");
("LTAW",4030153,3636390,1831,"TR");
("LTAY",3777859,2968671,2795,"TR");
("LTAZ",3877802,3451926,3100,"TR");
("LTBA",4099636,2880603,163,"TR");
("LTBF",3963271,2792662,340,"TR");
("LTBG",4033173,2797808,170,"TR");
("LTBH",4013161,2641981,23,"TR");
("LTBI",3978411,3056413,2581,"TR");
("LTBJ",3830658,2715272,412,"TR");
("LTBK",3832509,2715774,433,"TR");
("LTBL",3852647,2700872,16,"TR");
("LTBM",3778919,3057880,3250,"TR");
("LTBN",3943298,3001369,3026,"TR");
("LTBO",3868167,2945699,2897,"TR");
("LTBP",4068414,2937197,6,"TR");
("LTBQ",4073651,3006569,182,"TR");
("LTBR",4025221,2954540,764,"TR");
("LTBS",3670017,2878809,20,"TR");
("LTBT",3881955,2782312,263,"TR");
("LTBU",4112942,2790528,574,"TR");
("LTBV",3713720,2766158,202,"TR");
("LTBX",4099931,2921653,400,"TR");
("LTBY",3981045,3050469,2588,"TR");
("LTCA",3861229,3928436,2927,"TR");
("LTCC",3790915,4019498,2251,"TR");
("LTCD",3971583,3951065,3783,"TR");
("LTCE",3995511,4114800,5763,"TR");
("LTCF",4055528,4309639,5889,"TR");
("LTCG",4099954,3977524,104,"TR");
("LTCH",3710278,3884112,1483,"TR");
("LTCI",3845843,4332267,5480,"TR");
("LTCJ",3791659,4110907,1822,"TR");
("LTCK",3875485,4164292,4157,"TR");
("LTCL",3797588,4183089,2001,"TR");
("LTCN",3753638,3694081,1723,"TR");
("LTCO",3966324,4302408,5462,"TR");
("LTCP",3772403,3845816,2216,"TR");
("LTCR",3721438,4062312,1729,"TR");
("LTFA",3853017,2697384,13,"TR");
("LTFB",3795057,2731909,10,"TR");
("LTFC",3784665,3035539,2835,"TR");
("LTFD",3954894,2700415,50,"TR");
("LTFE",3725497,2764921,21,"TR");
("LTFH",4126374,3655418,18,"TR");
("LTFJ",4089274,2929343,312,"TR");
("LTFM",4098256,2882083,325,"TR");
("LUBL",4784699,2777487,758,"MD");
("LUKK",4692732,2890736,399,"MD");
("LVGZ",3123456,3426969,300,"PS");
("LWOH",4116905,2073773,2313,"MK");
("LWSK",4197228,2161766,781,"MK");
("LXGB",3615086,(-535982),15,"GI");
("LYBE",4482652,2029097,335,"RS");
("LYBT",4494750,2023775,265,"RS");
("LYNI",4334124,2184129,648,"RS");
("LYPG",4237062,1925302,141,"ME");
("LYTV",4241315,1871331,20,"ME");
("LYVR",4514247,2130856,276,"RS");
("LZIB",4817573,1720395,436,"SK");
("LZKZ",4864945,2123641,755,"SK");
("LZMC",4839133,1711333,679,"SK");
("LZPP",4861651,1782522,545,"SK");
("LZRY",4908299,2109681,1049,"SK");
("LZSL",4864832,1913464,1043,"SK");
("LZTN",4885842,1798295,676,"SK");
("LZTT",4907440,2022376,2355,"SK");
("LZZI",4923123,1860646,1020,"SK");
("MBGT",2144671,(-7115139),13,"TC");
("MBMC",2183547,(-7182211),9,"TC");
("MBNC",2191546,(-7194538),10,"TC");
("MBPI",2190117,(-7210547),3,"BS");
("MBPV",2177415,(-7227707),15,"BS");
("MBSC",2151687,(-7153725),6,"TC");
("MBSY",2133292,(-7120545),5,"TC");
("MBWC",2164689,(-7246354),5,"BS");
("MDAB",1919946,(-6943524),57,"DO");
("MDBH",1825773,(-7113298),10,"DO");
("MDCR",1793124,(-7165148),262,"DO");
("MDCY",1925783,(-6974300),12,"DO");
("MDCZ",1889724,(-7072560),3527,"DO");
("MDDJ",1956306,(-7169053),203,"DO");
("MDJB",1856509,(-6998649),98,"DO");
("MDLR",1845234,(-6892569),238,"DO");
("MDMC",1987998,(-7163653),68,"DO");
("MDPC",1857001,(-6838289),46,"DO");
("MDPO",1931954,(-6949599),57,"DO");
("MDPP",1975384,(-7058409),15,"DO");
("MDSD",1844396,(-6967418),59,"DO");
("MDSI",1849510,(-6976615),111,"DO");
("MDST",1940876,(-7061689),563,"DO");
("MGBN",1547444,(-8884167),130,"GT");
("MGCB",1546505,(-9040920),4339,"GT");
("MGGT",1457040,(-9053161),4952,"GT");
("MGLL",2689748,(-11195794),61,"MX");
("MGPB",1573833,(-8859372),33,"GT");
("MGRB",1599178,(-9045202),426,"MX");
("MGRT",1451651,(-9170273),656,"GT");
("MGSJ",1394456,(-9083951),29,"GT");
("MGTK",1691865,(-8987954),427,"GT");
("MHLC",1573719,(-8686596),49,"HN");
("MHLM",1544228,(-8793260),91,"HN");
("MHNJ",1644772,(-8591178),49,"HN");
("MHRO",1631257,(-8653248),18,"HN");
("MHSC",1439322,(-8762319),2061,"HN");
("MHTE",1577260,(-8748115),7,"HN");
("MHTG",1405292,(-8722000),3294,"HN");
("MHTJ",1592451,(-8594263),3,"HN");
("MKBS",1840395,(-7697333),90,"JM");
("MKJP",1794026,(-7679945),10,"JM");
("MKJS",1849870,(-7792486),6,"JM");
("MKKJ",1819856,(-7653956),20,"JM");
("MKTP",1799244,(-7682841),16,"JM");
("MMAA",1675996,(-9976323),16,"MX");
("MMAL",2632281,(-9954956),676,"MX");
("MMAN",2585603,(-10024391),1476,"MX");
("MMAS",2171462,(-10231742),6112,"MX");
("MMBT",1577299,(-9627499),464,"MX");
("MMCB",1882365,(-9926838),4277,"MX");
("MMCC",2933948,(-10110765),1410,"MX");
("MMCE",1865948,(-9180624),10,"MX");
("MMCG",3040466,(-10787980),4850,"MX");
("MMCH",1757960,(-9951696),4199,"MX");
("MMCL",2475695,(-10748230),108,"MX");
("MMCM",1850775,(-8833675),39,"MX");
("MMCN",2740025,(-10984106),205,"MX");
("MMCP",1982779,(-9050318),34,"MX");
("MMCS",3162832,(-10643588),3904,"MX");
("MMCT",2064355,(-8845943),102,"MX");
("MMCU",2871462,(-10596094),4462,"MX");
("MMCV",2371245,(-9896079),761,"MX");
("MMCY",2054675,(-10089570),5709,"MX");
("MMCZ",2052288,(-8694020),15,"MX");
("MMDO",2411389,(-10453686),6104,"MX");
("MMEP",2141019,(-10484748),3020,"MX");
("MMES",3179897,(-11660934),66,"MX");
("MMGL",2052875,(-10332775),5016,"MX");
("MMGM",2795978,(-11093102),59,"MX");
("MMHC",1850435,(-9742564),5509,"MX");
("MMHO",2908802,(-11106266),627,"MX");
("MMIA",1927409,(-10358804),2467,"MX");
("MMIM",2124927,(-8674223),7,"MX");
("MMIO",2555146,(-10092846),4778,"MX");
("MMIT",1645985,(-9509371),164,"MX");
("MMJA",1947460,(-9680558),3127,"MX");
("MMJC",1957077,(-9929346),8120,"MX");
("MMLC",1799553,(-10222321),39,"MX");
("MMLM",2568672,(-10909049),16,"MX");
("MMLO",2100438,(-10149292),5956,"MX");
("MMLP",2408389,(-11036088),69,"MX");
("MMLT",2599911,(-11134969),34,"MX");
("MMMA",2577941,(-9752995),25,"MX");
("MMMD",2093763,(-8966026),38,"MX");
("MMML",3263622,(-11525466),74,"MX");
("MMMM",1984162,(-10103851),6033,"MX");
("MMMT",1809437,(-9458372),36,"MX");
("MMMV",2695116,(-10148096),1864,"MX");
("MMMX",1942757,(-9909052),7316,"MX");
("MMMY",2578413,(-10011720),1278,"MX");
("MMMZ",2316202,(-10627783),38,"MX");
("MMNG",3123406,(-11097799),3990,"MX");
("MMNL",2745170,(-9957543),484,"MX");
("MMOX",1698805,(-9672906),4989,"MX");
("MMPA",2060254,(-9746947),497,"MX");
("MMPB",1917449,(-9837203),7361,"MX");
("MMPC",2007018,(-9878775),7600,"MX");
("MMPE",3135963,(-11353238),30,"MX");
("MMPG",2863287,(-10054352),901,"MX");
("MMPN",1938741,(-10204501),5258,"MX");
("MMPP",2380589,(-10971144),33,"MX");
("MMPQ",1753471,(-9199142),200,"MX");
("MMPR",2067053,(-10526511),23,"MX");
("MMPS",1587736,(-9709993),294,"MX");
("MMPY",2062387,(-8708556),36,"MX");
("MMQT",2062024,(-10020211),6296,"MX");
("MMRX",2601556,(-9823450),139,"MX");
("MMSC",1669470,(-9254156),7707,"MX");
("MMSD",2316528,(-10972264),374,"MX");
("MMSF",3093544,(-11481372),148,"MX");
("MMSP",2227359,(-10094315),6035,"MX");
("MMTA",1952724,(-9817707),8229,"MX");
("MMTB",1674965,(-9317345),1909,"MX");
("MMTC",2557196,(-10341451),3688,"MX");
("MMTG",1657143,(-9303224),1491,"MX");
("MMTJ",3254310,(-11698567),489,"MX");
("MMTM",2230198,(-9787411),80,"MX");
("MMTN",2204478,(-9880706),164,"MX");
("MMTO",1935450,(-9957388),8466,"MX");
("MMTP",1478922,(-9237769),97,"MX");
("MMUN",2104530,(-8689099),24,"MX");
("MMVA",1799639,(-9282778),46,"MX");
("MMVR",1914946,(-9618628),90,"MX");
("MMZC",2288514,(-10269375),7141,"MX");
("MMZH",1760188,(-10147233),26,"MX");
("MMZM",2005229,(-10227465),5141,"MX");
("MMZO",1914754,(-10456868),30,"MX");
("MMZP",2075130,(-10347631),5333,"MX");
("MNBL",1198598,(-8378186),41,"NI");
("MNBR",1219070,(-8635811),262,"NI");
("MNFC",1235711,(-8619619),217,"NI");
("MNLN",1242797,(-8690664),328,"NI");
("MNMG",1214274,(-8617933),194,"NI");
("MNMR",1179938,(-8651859),94,"NI");
("MNPC",1404625,(-8339814),69,"NI");
("MPBO",934047,(-8225767),10,"PA");
("MPCE",798129,(-8041107),33,"PA");
("MPCH",945439,(-8251943),19,"PA");
("MPDA",838350,(-8244084),89,"PA");
("MPEJ",936490,(-7986716),25,"PA");
("MPHO",892651,(-7959963),52,"PA");
("MPLP",839941,(-7814211),0,"PA");
("MPMG",898143,(-7955486),31,"PA");
("MPSA",809103,(-8094574),272,"PA");
("MPTO",904759,(-7939264),135,"PA");
("MPZZ",942654,(-8256740),23,"PA");
("MRAO",1041574,(-8361104),82,"CR");
("MRBA",915915,(-8333064),1214,"CR");
("MRBC",1077308,(-8358684),3,"CR");
("MRCC",860612,(-8296858),26,"CR");
("MRCH",998217,(-8477953),7,"CR");
("MRCV",1035223,(-8585587),33,"CR");
("MRCX",2684914,(-11314069),16,"MX");
("MRDC",1035162,(-8363490),79,"CR");
("MREC",1020120,(-8347676),56,"CR");
("MRFI",891088,(-8351084),49,"CR");
("MRGF",865827,(-8318638),49,"CR");
("MRGP",1021313,(-8380001),883,"CR");
("MRLB",1058905,(-8555629),270,"CR");
("MRLC",1103236,(-8471122),131,"CR");
("MRLM",996470,(-8302653),7,"CR");
("MRNS",997283,(-8565563),33,"CR");
("MROC",998900,(-8422186),3021,"CR");
("MRPD",973162,(-8298773),98,"CR");
("MRPM",894571,(-8347204),49,"CR");
("MRPV",995770,(-8414715),3287,"CR");
("MRQP",943939,(-8413302),85,"CR");
("MRSG",1028379,(-8371399),262,"CR");
("MRSL",883532,(-8325367),32,"CR");
("MRSV",882545,(-8296331),3228,"CR");
("MRTR",973647,(-8501840),220,"CR");
("MRUP",1088889,(-8501937),184,"CR");
("MSET",1316817,(-8790724),10,"SV");
("MSLD",1372172,(-8810764),919,"SV");
("MSLP",1343599,(-8906963),101,"SV");
("MSSS",1370783,(-8912445),2020,"SV");
("MTCA",1826995,(-7379294),203,"HT");
("MTCH",1972777,(-7219926),10,"HT");
("MTJA",1823650,(-7251900),167,"HT");
("MTJE",1866601,(-7417232),147,"HT");
("MTPP",1857933,(-7230692),122,"HT");
("MTPX",1993160,(-7285244),9,"HT");
("MUBA",2037268,(-7450985),33,"CU");
("MUBR",2262092,(-7915593),13,"CU");
("MUBY",2039313,(-7663011),203,"CU");
("MUCA",2202006,(-7880500),335,"CU");
("MUCC",2245654,(-7834238),13,"CU");
("MUCF",2213943,(-8041751),102,"CU");
("MUCL",2162241,(-8155905),10,"CU");
("MUCM",2141546,(-7786090),413,"CU");
("MUCU",1996956,(-7585467),249,"CU");
("MUFL",2149872,(-7820742),197,"CU");
("MUGM",1990667,(-7521869),56,"CU");
("MUGT",2009574,(-7516112),56,"CU");
("MUHA",2297863,(-8242494),209,"CU");
("MUHG",2077545,(-7632635),361,"CU");
("MUKW",2312080,(-8130736),16,"CU");
("MULB",2309267,(-8244812),98,"CU");
("MULM",2233341,(-8365128),131,"CU");
("MUMO",2065028,(-7493008),16,"CU");
("MUMZ",2028522,(-7710035),112,"CU");
("MUNB",2275375,(-8192508),49,"CU");
("MUNG",2182716,(-8279283),79,"CU");
("MUPB",2302302,(-8258353),102,"CU");
("MUPR",2241997,(-8368365),131,"CU");
("MUSA",2285139,(-8253908),164,"CU");
("MUSC",2248893,(-7995784),338,"CU");
("MUSL",2150688,(-7702862),13,"CU");
("MUSN",2163697,(-8296224),39,"CU");
("MUSS",2196268,(-7944655),295,"CU");
("MUTD",2178361,(-8000419),125,"CU");
("MUVR",2302551,(-8144937),209,"CU");
("MUVT",2098179,(-7694196),328,"CU");
("MWCB",1968623,(-7989143),7,"KY");
("MWCL",1966737,(-8010474),3,"KY");
("MWCR",1929042,(-8136764),7,"KY");
("MYAB",2428679,(-7769207),19,"BS");
("MYAF",2469828,(-7780173),5,"BS");
("MYAK",2416036,(-7759759),15,"BS");
("MYAM",2651121,(-7709113),6,"BS");
("MYAN",2505637,(-7805604),5,"BS");
("MYAP",2244593,(-7397681),11,"BS");
("MYAS",2600558,(-7740230),8,"BS");
("MYAT",2675192,(-7739909),8,"BS");
("MYAW",2726639,(-7840431),9,"BS");
("MYAX",2695396,(-7754917),10,"BS");
("MYBC",2541888,(-7788816),5,"BS");
("MYBG",2574172,(-7784592),18,"BS");
("MYBS",2569989,(-7927287),10,"BS");
("MYCA",2463289,(-7568356),18,"BS");
("MYCB",2431476,(-7545999),5,"BS");
("MYCC",2560105,(-7926827),3,"BS");
("MYCI",2274524,(-7418833),5,"BS");
("MYCX",2415146,(-7540331),3,"BS");
("MYEF",2356694,(-7588694),9,"BS");
("MYEG",2346881,(-7578875),5,"BS");
("MYEH",2547255,(-7668984),13,"BS");
("MYEM",2529372,(-7633801),26,"BS");
("MYEN",2459050,(-7682213),8,"BS");
("MYER",2489133,(-7618861),10,"BS");
("MYES",2417308,(-7644031),5,"BS");
("MYGF",2655134,(-7871030),7,"BS");
("MYGM",2662647,(-7837462),6,"BS");
("MYGW",2668302,(-7898514),3,"BS");
("MYIG",2097583,(-7367711),8,"BS");
("MYLD",2317917,(-7509959),9,"BS");
("MYLS",2358450,(-7527544),10,"BS");
("MYMM",2237391,(-7302245),11,"BS");
("MYNN",2505215,(-7747600),16,"BS");
("MYRD",2218515,(-7573378),6,"BS");
("MYRP",2368437,(-7484292),15,"BS");
("MYSM",2406426,(-7453593),24,"BS");
("MZBZ",1753690,(-8831812),15,"BZ");
("NCAI",(-1882967),(-15976481),20,"CK");
("NCAT",(-1996671),(-15812575),15,"CK");
("NCMG",(-2189198),(-15790948),40,"CK");
("NCMH",(-1037408),(-16100335),10,"AS");
("NCMK",(-2013371),(-15735200),15,"CK");
("NCMN",(-1926329),(-15895924),15,"CK");
("NCMR",(-1984053),(-15771042),25,"CK");
("NCPK",(-1091530),(-16584631),10,"AS");
("NCPY",(-900629),(-15803663),8,"PF");
("NCRG",(-2120274),(-15981677),19,"CK");
("NFCI",(-1774755),(-17934224),13,"WF");
("NFFN",(-1777276),17742918,59,"FJ");
("NFFO",(-1777589),17719452,10,"FJ")].
(** openap/data/nav/airports.csv:6002-6501 *)
Definition apts12 : list apt := [
("NFFR",(-1653191),17997374,18,"FJ");
("NFKB",(-1725160),(-17949042),70,"WF");
("NFKD",(-1905384),17815650,6,"FJ");
("NFMA",(-1767067),17709656,10,"FJ");
("NFMO",(-1856378),17994977,13,"FJ");
("NFNA",(-1804055),17855091,17,"FJ");
("NFNB",(-1771120),17875564,11,"FJ");
("NFNG",(-1811383),17933683,50,"FJ");
("NFNH",(-1674219),(-17966734),10,"WF");
("NFNK",(-1819451),(-17882091),240,"WF");
("NFNL",(-1646379),17933677,44,"FJ");
("NFNM",(-1668837),(-17988139),50,"WF");
("NFNO",(-1734445),17941855,205,"FJ");
("NFNR",(-1248362),17706452,25,"FJ");
("NFNS",(-1679937),17933891,11,"FJ");
("NFOL",(-2065505),(-17874212),110,"TO");
("NFSW",(-1675749),17754399,85,"FJ");
("NFTE",(-2137486),(-17495813),325,"TO");
("NFTF",(-2123415),(-17516137),126,"TO");
("NFTL",(-1977413),(-17434622),25,"TO");
("NFTO",(-1557072),(-17563726),50,"TO");
("NFTP",(-1597345),(-17379641),16,"TO");
("NFTV",(-1858466),(-17397086),236,"TO");
("NFVL",(-1850980),17763549,16,"FJ");
("NGAB",180097,17303632,32,"KI");
("NGBR",(-135290),17600292,20,"KI");
("NGFU",(-852909),17919203,6,"TV");
("NGKT",22009,17343890,5,"KI");
("NGMA",100630,17302713,20,"KI");
("NGMK",205944,17326738,7,"KI");
("NGMN",337292,17298845,3,"KI");
("NGNU",(-131621),17640515,15,"KI");
("NGON",(-179331),17552312,10,"KI");
("NGTA",138276,17313790,9,"KI");
("NGTB",49158,17382461,8,"KI");
("NGTE",(-121971),17477394,10,"KI");
("NGTM",(-248607),17596602,15,"TV");
("NGTO",(-63960),17442411,10,"KI");
("NGTR",(-261563),17679874,15,"TV");
("NGTS",(-147529),17506077,15,"KI");
("NGTU",308420,17280552,15,"KI");
("NGUK",18595,17363329,20,"KI");
("NIUE",(-1907544),(-16993619),209,"NU");
("NLWF",(-1431207),(-17807174),20,"WF");
("NLWW",(-1323834),(-17620897),79,"WF");
("NSAS",(-1418399),(-16967282),9,"AS");
("NSAU",(-1350535),(-17263088),40,"WS");
("NSFA",(-1383020),(-17202372),58,"WS");
("NSFI",(-1384816),(-17174266),131,"WS");
("NSFQ",(-1421421),(-16942864),110,"AS");
("NSMA",(-1374232),(-17226115),20,"WS");
("NSTU",(-1434053),(-17072527),0,"AS");
("NTAA",(-1756288),(-14962043),5,"PF");
("NTAR",(-2243178),(-15136755),18,"PF");
("NTAT",(-2336985),(-14952956),7,"PF");
("NTAV",(-2388713),(-14766849),7,"PF");
("NTGA",(-1734674),(-14551352),10,"PF");
("NTGB",(-1582038),(-14089277),9,"PF");
("NTGC",(-1512098),(-14823611),6,"PF");
("NTGE",(-1846344),(-13644323),12,"PF");
("NTGF",(-1605643),(-14566197),13,"PF");
("NTGI",(-1443911),(-14607364),14,"PF");
("NTGJ",(-2307331),(-13489706),7,"PF");
("NTGK",(-1566763),(-14688718),11,"PF");
("NTGM",(-1658019),(-14366423),3,"PF");
("NTGP",(-1480784),(-13881682),5,"PF");
("NTGT",(-1471026),(-14525003),12,"PF");
("NTGU",(-1524568),(-14662211),9,"PF");
("NTGV",(-1486287),(-14871559),11,"PF");
("NTHE",(-1442990),(-14626237),11,"PF");
("NTKF",(-1668687),(-14533475),7,"PF");
("NTKR",(-1445610),(-14502942),13,"PF");
("NTMD",(-879842),(-14023595),220,"PF");
("NTMN",(-977344),(-13901410),1481,"PF");
("NTTB",(-1644053),(-15175711),10,"PF");
("NTTE",(-1701683),(-14959238),9,"PF");
("NTTG",(-1495162),(-14767019),10,"PF");
("NTTH",(-1668849),(-15102864),7,"PF");
("NTTM",(-1748622),(-14976577),9,"PF");
("NTTO",(-1806406),(-14095721),10,"PF");
("NTTP",(-1642656),(-15224814),15,"PF");
("NTTR",(-1672354),(-15147239),3,"PF");
("NVSA",(-1366228),16770877,63,"VU");
("NVSC",(-1384929),16753640,40,"VU");
("NVSE",(-1708581),16834041,35,"VU");
("NVSF",(-1626178),16792040,69,"VU");
("NVSG",(-1530878),16796474,167,"VU");
("NVSH",(-1546907),16815110,472,"VU");
("NVSM",(-1658112),16815763,7,"VU");
("NVSN",(-1499145),16807713,488,"VU");
("NVSO",(-1586044),16816989,43,"VU");
("NVSP",(-1607452),16739660,23,"VU");
("NVSQ",(-1421643),16758583,60,"VU");
("NVSS",(-1549886),16721246,184,"VU");
("NVSV",(-1679197),16817529,36,"VU");
("NVSX",(-1648287),16744496,59,"VU");
("NVSZ",(-1487750),16655658,45,"VU");
("NVVA",(-2025052),16976827,7,"VU");
("NVVB",(-1922982),16960063,69,"VU");
("NVVD",(-1876793),16899742,538,"VU");
("NVVF",(-1951318),17023077,98,"VU");
("NVVI",(-1885417),16928026,23,"VU");
("NVVQ",(-1753651),16843427,3,"VU");
("NVVV",(-1769269),16830671,70,"VU");
("NVVW",(-1944990),16922154,19,"VU");
("NWWA",(-2109008),16780317,13,"NC");
("NWWB",(-2160835),16539297,7,"NC");
("NWWC",(-1971975),16365834,306,"NC");
("NWWD",(-2105266),16483304,22,"NC");
("NWWE",(-2258684),16745109,314,"NC");
("NWWH",(-2125287),16561466,17,"NC");
("NWWK",(-2054828),16425076,41,"NC");
("NWWL",(-2077140),16723591,92,"NC");
("NWWM",(-2225259),16647265,10,"NC");
("NWWO",(-2245820),16678105,6,"NC");
("NWWP",(-2028552),16409457,6,"NC");
("NWWR",(-2147812),16803453,138,"NC");
("NWWT",(-2181715),16585839,98,"NC");
("NWWU",(-2078581),16525632,10,"NC");
("NWWV",(-2063665),16656958,24,"NC");
("NWWW",(-2200696),16619954,51,"NC");
("NWWX",(-2151788),16596779,6,"NC");
("NZAA",(-3701748),17476658,23,"NZ");
("NZAG",(-3674113),17564104,0,"NZ");
("NZAN",(-4070158),17585598,500,"NZ");
("NZAP",(-3873469),17608696,1335,"NZ");
("NZAR",(-3703550),17496888,111,"NZ");
("NZAS",(-4390446),17179068,298,"NZ");
("NZBA",(-4624692),16975336,22,"NZ");
("NZCB",(-4634082),16829476,253,"NZ");
("NZCH",(-4349761),17252212,123,"NZ");
("NZCI",(-4381376),(-17647331),43,"NZ");
("NZCS",(-4505166),16917018,745,"NZ");
("NZCX",(-3679331),17550889,13,"NZ");
("NZDA",(-3593882),17388384,6,"NZ");
("NZDN",(-4593393),17018747,4,"NZ");
("NZDV",(-4023781),17607509,635,"NZ");
("NZFF",(-4338126),17236060,402,"NZ");
("NZFP",(-4045838),17527588,36,"NZ");
("NZGA",(-3840951),17674170,550,"NZ");
("NZGB",(-3624339),17546583,41,"NZ");
("NZGC",(-4616296),16889131,198,"NZ");
("NZGM",(-4246858),17118717,14,"NZ");
("NZGS",(-3865776),17797555,14,"NZ");
("NZGT",(-4390609),17012725,1824,"NZ");
("NZGY",(-4487458),16839877,1255,"NZ");
("NZHA",(-3956000),17426987,374,"NZ");
("NZHB",(-3679423),17465478,62,"NZ");
("NZHK",(-4271361),17097900,146,"NZ");
("NZHN",(-3785817),17533513,172,"NZ");
("NZHS",(-3964836),17676361,72,"NZ");
("NZIR",(-7788815),16703192,49,"AQ");
("NZKF",(-3640645),17458250,110,"NZ");
("NZKI",(-4242441),17360200,19,"NZ");
("NZKK",(-3525068),17390853,491,"NZ");
("NZKM",(-4124246),17210282,28,"NZ");
("NZKO",(-3544860),17381993,545,"NZ");
("NZKT",(-3506425),17328122,270,"NZ");
("NZLE",(-4176607),17275505,1709,"NZ");
("NZLX",(-4520583),16936972,752,"NZ");
("NZMA",(-3773653),17573627,182,"NZ");
("NZMC",(-4376035),17013107,2152,"NZ");
("NZME",(-3725781),17511384,66,"NZ");
("NZMF",(-4467357),16791980,10,"NZ");
("NZMK",(-4112509),17298859,38,"NZ");
("NZMO",(-4553139),16764314,687,"NZ");
("NZMR",(-4179896),17231664,532,"NZ");
("NZMS",(-4097604),17562784,350,"NZ");
("NZMT",(-4121643),17548945,100,"NZ");
("NZNE",(-3665875),17465223,212,"NZ");
("NZNP",(-3901044),17416986,97,"NZ");
("NZNR",(-3946294),17686769,6,"NZ");
("NZNS",(-4129593),17321739,16,"NZ");
("NZNV",(-4641882),16830144,15,"NZ");
("NZOA",(-4448931),16999407,1380,"NZ");
("NZOH",(-4020225),17537261,164,"NZ");
("NZOM",(-4153921),17391967,100,"NZ");
("NZOP",(-3802658),17731067,25,"NZ");
("NZOU",(-4495984),17108522,99,"NZ");
("NZOX",(-3615198),17541594,10,"NZ");
("NZPG",(-7796917),16658437,49,"AQ");
("NZPH",(-4359937),17153733,1506,"NZ");
("NZPI",(-3665191),17443260,6,"NZ");
("NZPK",(-3693008),17481103,10,"NZ");
("NZPM",(-4032139),17560333,151,"NZ");
("NZPN",(-4134066),17395471,140,"NZ");
("NZPP",(-4089738),17498839,22,"NZ");
("NZQN",(-4502181),16873530,1171,"NZ");
("NZRA",(-3780784),17485503,14,"NZ");
("NZRC",(-4689842),16810497,262,"NZ");
("NZRK",(-3889464),17636435,2337,"NZ");
("NZRO",(-3810012),17632062,935,"NZ");
("NZRT",(-4329113),17254021,179,"NZ");
("NZRU",(-3943644),17565202,2686,"NZ");
("NZRV",(-3681379),17508501,445,"NZ");
("NZRW",(-3609921),17397398,6,"NZ");
("NZRX",(-4551741),16931609,506,"NZ");
("NZSD",(-3931752),17430307,946,"NZ");
("NZSL",(-3632876),17455609,99,"NZ");
("NZSP",(-8997964),(-7228232),9301,"AR");
("NZTA",(-3746840),17561970,25,"NZ");
("NZTE",(-3774759),17515687,110,"NZ");
("NZTG",(-3767375),17618806,13,"NZ");
("NZTH",(-3716311),17554614,5,"NZ");
("NZTI",(-4586350),17035799,85,"NZ");
("NZTK",(-4081957),17277386,97,"NZ");
("NZTL",(-4400322),17044721,2496,"NZ");
("NZTM",(-3884530),17525851,650,"NZ");
("NZTN",(-3897236),17581064,1220,"NZ");
("NZTO",(-3824383),17589728,1221,"NZ");
("NZTT",(-3830925),17514800,160,"NZ");
("NZTU",(-4430310),17122095,89,"NZ");
("NZTZ",(-4546694),16770158,786,"NZ");
("NZUK",(-4423364),17011842,1575,"NZ");
("NZUN",(-3702415),17585882,19,"NZ");
("NZVL",(-4599591),16882198,335,"NZ");
("NZWB",(-4151634),17386099,109,"NZ");
("NZWD",(-7785592),16709259,68,"AQ");
("NZWF",(-4471811),16924203,1142,"NZ");
("NZWG",(-4355460),17254956,74,"NZ");
("NZWK",(-3791661),17690895,20,"NZ");
("NZWL",(-4347376),17240148,304,"NZ");
("NZWM",(-4479238),17108871,80,"NZ");
("NZWN",(-4131787),17480743,42,"NZ");
("NZWO",(-3900739),17740411,42,"NZ");
("NZWP",(-3679619),17462091,100,"NZ");
("NZWR",(-3576822),17435806,129,"NZ");
("NZWS",(-4174167),17157333,13,"NZ");
("NZWT",(-3683447),17567395,12,"NZ");
("NZWU",(-3995964),17501794,27,"NZ");
("NZWV",(-3743467),17595466,4,"NZ");
("NZYP",(-4000155),17653298,430,"NZ");
("OAHR",3422122,6223002,3206,"AF");
("OAIX",3493431,6925700,4895,"AF");
("OAJL",3440644,7048960,1814,"AF");
("OAKB",3457058,6919406,5877,"AF");
("OAKN",3149751,6583393,3337,"AF");
("OAMN",3593639,6475576,2743,"AF");
("OAMS",3670104,6719346,1287,"AF");
("OASD",3340386,6226170,3773,"AF");
("OASG",3674960,6590887,1053,"AF");
("OAUZ",3666868,6890026,1426,"AF");
("OBBI",2628039,5061703,6,"BH");
("OBBS",2593373,5058213,136,"BH");
("OEAA",2732491,4958317,69,"SA");
("OEAB",1824991,4264427,6858,"SA");
("OEAH",2529864,4948124,588,"SA");
("OEBA",2029117,4161912,5486,"SA");
("OEBH",1999786,4262433,3887,"SA");
("OEBQ",2591854,4958664,229,"SA");
("OEDF",2648858,4980370,72,"SA");
("OEDM",2446222,4411454,3026,"SA");
("OEDR",2626860,5013261,84,"SA");
("OEGN",1691302,4257862,20,"SA");
("OEGS",2631483,4376701,2126,"SA");
("OEGT",3141578,3726407,1672,"SA");
("OEHL",2745467,4168750,3331,"SA");
("OEHW",2297795,4689314,2091,"SA");
("OEJB",2705662,4940060,26,"SA");
("OEJF",2135930,3916761,7,"SA");
("OEJN",2170274,3912687,48,"SA");
("OEKK",2791150,4551392,1352,"SA");
("OEKM",1828769,4277336,6778,"SA");
("OEKR",2507767,4819214,1300,"SA");
("OEMA",2457313,3970394,2151,"SA");
("OENG",1760453,4440671,3982,"SA");
("OEPA",2834779,4611926,1174,"SA");
("OEPC",2518321,4748101,1740,"SA");
("OEPF",2472106,4496206,2530,"SA");
("OEPI",2428686,4214116,3000,"SA");
("OEPJ",2411600,4103575,2840,"SA");
("OEPK",2796214,4674000,1000,"SA");
("OEPS",2408074,4757895,1651,"SA");
("OERB",2271210,3906463,22,"SA");
("OERF",2963172,4347653,1474,"IQ");
("OERK",2497094,4667488,2049,"SA");
("OERM",2809417,4860611,13,"SA");
("OERR",3091015,4112281,1813,"SA");
("OERT",2673168,5002579,6,"SA");
("OERY",2470508,4672450,2082,"SA");
("OESB",2251387,5394934,300,"AE");
("OESH",1746532,4710424,2363,"YE");
("OESK",2978793,4008134,2261,"SA");
("OESL",2046736,4560553,2021,"SA");
("OETB",2836923,3661989,2551,"SA");
("OETF",2147733,4052064,4848,"SA");
("OETH",2523088,4663782,1870,"SA");
("OETN",2787778,4876374,30,"SA");
("OETR",3169627,3871601,2803,"SA");
("OEUD",2516092,4932861,759,"SA");
("OEWD",2050713,4518527,2062,"SA");
("OEWJ",2621055,3646860,66,"SA");
("OEYN",2414755,3804797,26,"SA");
("OIAA",3037875,4822120,19,"IR");
("OIAD",3244651,4838438,474,"IR");
("OIAG",3075236,4966849,88,"IR");
("OIAH",3034230,5082005,2414,"IR");
("OIAI",3200813,4926195,1206,"IR");
("OIAJ",3084550,4951500,85,"IR");
("OIAM",3056512,4914235,8,"IR");
("OIAW",3134603,4874717,66,"IR");
("OIBA",2587419,5501820,23,"IR");
("OIBB",2895753,5081676,68,"IR");
("OIBH",2721099,5431195,1350,"IR");
("OIBI",2748918,5259946,15,"IR");
("OIBJ",2782499,5234134,2173,"IR");
("OIBK",2653011,5396201,101,"IR");
("OIBL",2653043,5481242,67,"IR");
("OIBP",2739089,5272192,27,"IR");
("OIBQ",2926596,5031720,17,"IR");
("OIBS",2591616,5452938,43,"IR");
("OIBV",2681372,5334656,76,"IR");
("OICC",3435261,4714143,4301,"IR");
("OICI",3359655,4639549,4404,"IR");
("OICK",3344101,4826704,3782,"IR");
("OICS",3523455,4700472,4522,"IR");
("OIFE",3292654,5154541,5256,"IR");
("OIFH",3256232,5168397,5310,"IR");
("OIFK",3389962,5156341,3465,"IR");
("OIFM",3274874,5183783,5059,"IR");
("OIFP",3261986,5167935,5242,"IR");
("OIFS",3230923,5083214,6723,"IR");
("OIGG",3732643,4958915,(-40),"IR");
("OIHH",3487107,4853927,5755,"IR");
("OIHR",3413563,4983137,5440,"IR");
("OIHS",3521486,4865631,5609,"IR");
("OIIA",3595338,5044321,3769,"IR");
("OIIC",3498946,5078983,3008,"IR");
("OIID",3569584,5146567,4046,"IR");
("OIIE",3542368,5112151,3305,"IR");
("OIIG",3564531,5137220,3627,"IR");
("OIII",3569868,5132405,3962,"IR");
("OIIK",3624093,5004102,4184,"IR");
("OIIM",3578002,5087696,4040,"IR");
("OIIP",3578612,5081092,4170,"IR");
("OIKB",2720317,5637036,22,"IR");
("OIKJ",2873324,5766149,2663,"IR");
("OIKK",3028942,5694411,5741,"IR");
("OIKM",2909240,5843539,3231,"IR");
("OIKP",2715601,5615925,19,"IR");
("OIKQ",2674226,5588620,45,"IR");
("OIKR",3030276,5603672,5298,"IR");
("OIKY",2956220,5565822,5846,"IR");
("OIMB",3289651,5926966,4952,"IR");
("OIMC",3651593,6105221,945,"IR");
("OIMJ",3642087,5509011,4197,"IR");
("OIMM",3624677,5962437,3263,"IR");
("OIMN",3748805,5729105,3499,"IR");
("OIMS",3616927,5757758,3010,"IR");
("OIMT",3367988,5688468,2312,"IR");
("OINE",3738584,5543991,425,"IR");
("OING",3691656,5439205,(-24),"IR");
("OINJ",3665426,5234419,(-79),"IR");
("OINN",3666655,5145443,(-61),"IR");
("OINR",3691428,5067318,(-70),"IR");
("OINZ",3665586,5318382,35,"IR");
("OISF",2889889,5371639,4261,"IR");
("OISJ",2858516,5356696,3358,"IR");
("OISL",2767451,5436732,2641,"IR");
("OISR",2737868,5317440,1337,"IR");
("OISS",2954926,5257009,4920,"IR");
("OISY",3070839,5153509,5939,"IR");
("OITK",3843906,4496730,3981,"IR");
("OITL",3833854,4841490,4315,"IR");
("OITM",3734687,4611143,4396,"IR");
("OITP",3960779,4786740,253,"IR");
("OITR",3765585,4505868,4343,"IR");
("OITT",3814386,4621957,4459,"IR");
("OITZ",3678169,4834592,5382,"IR");
("OIYY",3191752,5426066,4054,"IR");
("OIZB",3111033,6154051,1628,"IR");
("OIZC",2544566,6036521,43,"IR");
("OIZH",2949462,6090223,4564,"IR");
("OIZI",2724659,6071817,2040,"IR");
("OIZS",2742588,6230774,3930,"IR");
("OJAI",3172674,3596956,2395,"JO");
("OJAM",3196626,3597598,2555,"JO");
("OJAQ",2959805,3501332,175,"JO");
("OJHF",3216956,3713741,2220,"JO");
("OJHR",3254166,3818199,2250,"SA");
("OJJR",3187037,3520828,2485,"PS");
("OJMF",3236521,3624718,2240,"JO");
("OKAS",2935449,4750810,472,"KW");
("OKBK",2924118,4798341,206,"KW");
("OKDI",2970479,4743617,430,"KW");
("OLBA",3379819,3548086,87,"LB");
("OLKA",3458297,3599689,75,"LB");
("OLRA",3384152,3597615,3018,"LB");
("OMAA",2444439,5463521,88,"AE");
("OMAD",2443743,5444569,16,"AE");
("OMAH",2408509,5246144,50,"AE");
("OMAJ",2419426,5260618,43,"AE");
("OMAL",2424379,5560658,869,"AE");
("OMAM",2425817,5453333,77,"AE");
("OMAR",2478361,5255603,15,"AE");
("OMAS",2515030,5287085,12,"AE");
("OMAZ",2486519,5307347,14,"AE");
("OMDB",2526649,5534702,62,"AE");
("OMDM",2502655,5534661,165,"AE");
("OMFJ",2511857,5630703,152,"AE");
("OMRK",2562974,5593391,102,"AE");
("OMSJ",2533834,5550025,111,"AE");
("OOKB",2616000,5623756,100,"OM");
("OOMA",2068450,5888820,64,"OM");
("OOMS",2359166,5826689,48,"OM");
("OOSA",1703375,5407646,73,"OM");
("OOTH",1768386,5402219,1570,"OM");
("OPBG",3205186,7293481,600,"PK");
("OPBW",2934562,7170359,392,"PK");
("OPCH",3587964,7179601,4920,"PK");
("OPDG",2996995,7048607,492,"PK");
("OPDI",3191271,7088964,594,"PK");
("OPFA",3135504,7298680,591,"PK");
("OPGD",2523017,6232283,36,"PK");
("OPGT",3591644,7432499,4796,"PK");
("OPJA",2829603,6844278,185,"PK");
("OPKC",2490039,6714263,100,"PK");
("OPLA",3153665,7440484,712,"PK");
("OPLH",3149921,7434142,679,"PK");
("OPMA",3305502,7363270,902,"PK");
("OPMF",3434171,7350496,2691,"PK");
("OPMI",3255694,7155568,690,"PK");
("OPMJ",2733307,6813336,154,"PK");
("OPMR",2489848,6692634,35,"PK");
("OPMT",3021569,7141994,403,"PK");
("OPNH",2620784,6838524,95,"PK");
("OPOK",3075617,7335777,568,"PK");
("OPOR",2527165,6457962,32,"PK");
("OPPC",3390800,7006937,5799,"PK");
("OPPG",2695910,6412684,3289,"PK");
("OPPI",2528370,6333286,33,"PK");
("OPPS",3400622,7151354,1158,"PK");
("OPQS",3356745,7302657,1581,"PK");
("OPQT",3026410,6692559,5267,"PK");
("OPRK",2837079,7027571,271,"PK");
("OPRN",3362378,7308317,1668,"PK");
("OPRS",3408033,7195639,1050,"PK");
("OPRT",3384570,7379704,5479,"PK");
("OPSD",3535326,7553047,7600,"PK");
("OPSF",2487208,6710658,29,"PK");
("OPSK",2773154,6878282,196,"PK");
("OPSS",3480868,7234529,3183,"PK");
("OPST",3252365,7435008,837,"PK");
("OPSU",2863731,6917547,763,"PK");
("OPTH",2483546,6882658,28,"PK");
("OPTU",2598539,6302116,498,"PK");
("OPWN",3230478,6956559,4550,"PK");
("OPZB",3135980,6945446,4728,"PK");
("ORAA",3378949,4243297,618,"IQ");
("ORAT",3334591,4357655,275,"IQ");
("ORBD",3394562,4434154,161,"IQ");
("ORBM",3631680,4314178,709,"IQ");
("ORBR",3654128,4433168,2079,"IQ");
("ORBS",3328382,4423118,114,"IQ");
("ORER",3625787,4394702,1341,"IQ");
("ORKK",3547892,4433446,1061,"IQ");
("ORMM",3056217,4764850,11,"IQ");
("ORQW",3578404,4312224,749,"IQ");
("ORSH",3467928,4352586,451,"IQ");
("ORSU",3557159,4530053,2494,"IQ");
("ORTF",3629324,4239199,996,"IQ");
("ORTI",3353132,4425360,121,"IQ");
("ORTL",3094469,4607589,20,"IQ");
("ORUB",3248560,4574004,68,"IQ");
("OSAP",3618233,3720837,1276,"SY");
("OSDI",3338500,3649606,2020,"SY");
("OSDZ",3528660,4015288,700,"SY");
("OSKL",3700795,4117864,1480,"SY");
("OSLK",3541388,3594753,157,"SY");
("OSPR",3455599,3830125,1322,"SY");
("OTBD",2528022,5155653,35,"QA");
("OTBH",2513301,5130804,130,"QA");
("OTBK",2563514,5150162,10,"QA");
("OTHH",2525980,5161430,13,"QA");
("OYAA",1282642,4501475,7,"YE");
("OYAT",1456044,4681683,3735,"YE");
("OYBA",1871225,5082457,908,"YE");
("OYBN",1478947,4571914,3800,"YE");
("OYGD",1619155,5216074,134,"YE");
("OYHD",1474083,4297014,41,"YE");
("OYRN",1465627,4936273,54,"YE");
("OYSN",1549098,4421964,7216,"YE");
("OYSQ",1264545,5391306,114,"YE");
("OYSY",1596109,4877531,2097,"YE");
("OYTZ",1367225,4413718,4838,"YE");
("PAAK",5222476,(-17420783),56,"US");
("PAAQ",6160399,(-14908750),242,"US");
("PABA",7013433,(-14360119),2,"US");
("PABE",6078783,(-16182925),125,"US");
("PABG",6117848,(-15103811),130,"US");
("PABI",6400800,(-14570700),1291,"US");
("PABL",6598387,(-16115825),29,"US");
("PABM",5936172,(-15526848),663,"US");
("PABN",6240453,(-14299670),2880,"US");
("PABR",7128485,(-15679909),44,"US");
("PABT",6690794,(-15153869),644,"US");
("PABU",6309379,(-14747335),2675,"US");
("PABV",6141176,(-14951618),96,"US");
("PACD",5522239,(-16273792),98,"US");
("PACH",6158520,(-15923743),244,"US")].
(** openap/data/nav/airports.csv:6502-7001 *)
Definition apts13 : list apt := [
("PACI",6664177,(-14375100),544,"US");
("PACK",6015709,(-16428451),39,"US");
("PACL",6429665,(-14912712),552,"US");
("PACM",6184617,(-16558172),14,"US");
("PACR",6583461,(-14407581),610,"US");
("PACS",5458694,(-16491731),291,"US");
("PACV",6049675,(-14549683),41,"US");
("PACY",6008266,(-14250399),12,"US");
("PACZ",6177583,(-16604556),457,"US");
("PADE",6606518,(-16277410),21,"US");
("PADG",6802617,(-16291298),974,"US");
("PADK",5187836,(-17665727),18,"US");
("PADL",5903684,(-15851309),74,"US");
("PADM",6186379,(-16203534),103,"US");
("PADQ",5775219,(-15251899),78,"US");
("PADT",6272436,(-14392315),2420,"US");
("PADU",5390289,(-16655140),22,"US");
("PADY",5996196,(-16288013),25,"US");
("PAED",6124864,(-14984424),212,"US");
("PAEE",6021809,(-16204249),0,"US");
("PAEG",6477648,(-14116250),880,"CA");
("PAEH",5865157,(-16206598),541,"US");
("PAEI",6468402,(-14711902),548,"US");
("PAEM",6279243,(-16449154),8,"US");
("PAEN",6056311,(-15125839),99,"US");
("PAEW",6094160,(-16464261),25,"US");
("PAFA",6480263,(-14788589),434,"US");
("PAFB",6483742,(-14764200),454,"US");
("PAFE",5696487,(-13391795),172,"US");
("PAFL",6253310,(-15361268),1151,"US");
("PAFM",6710869,(-15785125),334,"US");
("PAFR",6127205,(-14965167),378,"US");
("PAFS",6301610,(-15436920),441,"US");
("PAFV",6592975,(-14984627),510,"US");
("PAFW",6250815,(-15390801),1535,"US");
("PAGA",6473594,(-15696009),152,"US");
("PAGB",6848511,(-14950032),2670,"US");
("PAGG",5987978,(-16317034),18,"US");
("PAGH",6689052,(-15717484),197,"US");
("PAGK",6216171,(-14545661),1580,"US");
("PAGL",6454601,(-16301466),59,"US");
("PAGM",6377271,(-17173471),27,"RU");
("PAGQ",6153628,(-14982087),158,"US");
("PAGS",5843271,(-13571728),34,"US");
("PAGT",6046857,(-16468832),14,"US");
("PAGY",5945657,(-13532229),44,"US");
("PAHC",6218361,(-15978099),70,"US");
("PAHL",6569442,(-15636177),213,"US");
("PAHM",6388194,(-15231108),678,"US");
("PAHN",5924571,(-13553357),15,"US");
("PAHO",5964027,(-15149148),84,"US");
("PAHP",6152772,(-16615154),7,"US");
("PAHU",6604565,(-15426041),289,"US");
("PAHV",6387021,(-14896946),1294,"US");
("PAHX",6269827,(-15956906),70,"US");
("PAIG",5932277,(-15590941),90,"US");
("PAII",5819130,(-15738569),92,"US");
("PAIK",6697530,(-16044829),166,"US");
("PAIL",5975189,(-15492407),186,"US");
("PAIM",6599194,(-15371750),1220,"US");
("PAIN",6373668,(-14890951),1720,"US");
("PAIW",6562799,(-16809298),22,"US");
("PAJC",5630867,(-15837803),50,"US");
("PAJN",5835793,(-13459756),21,"US");
("PAJO",6048151,(-14658897),15,"US");
("PAJV",6173030,(-14893124),870,"US");
("PAJZ",5972776,(-15726729),269,"US");
("PAKA",6087311,(-14669229),25,"US");
("PAKD",5780340,(-15237810),139,"US");
("PAKF",5484983,(-16341312),20,"US");
("PAKH",5693717,(-15418986),50,"US");
("PAKI",5993577,(-16403193),11,"US");
("PAKK",6493531,(-16115868),154,"US");
("PAKL",5898125,(-15513274),717,"US");
("PAKN",5868394,(-15666473),68,"US");
("PAKO",5294159,(-16885700),77,"US");
("PAKP",6812846,(-15175426),2103,"US");
("PAKT",5536288,(-13172634),88,"US");
("PAKU",7032925,(-14962155),67,"US");
("PAKV",6431336,(-15875506),187,"US");
("PAKW",5557392,(-13308362),80,"US");
("PAKY",5756848,(-15445476),137,"US");
("PALG",6153559,(-16035038),55,"US");
("PALJ",6020306,(-15432675),280,"US");
("PALN",7091170,(-15326298),17,"US");
("PALR",6750240,(-14849244),1920,"US");
("PALU",6887639,(-16612867),12,"US");
("PAMB",5898682,(-15905296),51,"US");
("PAMC",6295920,(-15560528),338,"US");
("PAMD",5944421,(-14631285),100,"US");
("PAMK",6348546,(-16211703),93,"US");
("PAML",6499483,(-15065084),270,"US");
("PAMO",6209076,(-16368834),337,"US");
("PAMR",6121590,(-14985331),137,"US");
("PAMX",6143328,(-14290992),1531,"US");
("PAMY",6036975,(-16627839),48,"US");
("PANA",6069414,(-16196973),20,"US");
("PANC",6116782,(-15003437),152,"US");
("PANI",6158585,(-15955777),88,"US");
("PANN",6454561,(-14908706),362,"US");
("PANO",5997720,(-15484384),314,"US");
("PANT",5504531,(-13158186),119,"US");
("PANU",6472525,(-15808278),399,"US");
("PANV",6265075,(-16018951),309,"US");
("PANW",5945232,(-15732893),302,"US");
("PAOB",6691044,(-15686865),145,"US");
("PAOC",5890739,(-15771890),137,"US");
("PAOH",5809686,(-13541275),30,"US");
("PAOM",6451430,(-16546802),37,"US");
("PAOO",6054573,(-16508767),59,"US");
("PAOR",6296009,(-14193867),1716,"US");
("PAOT",6688944,(-16260937),14,"US");
("PAOU",5600811,(-16117009),14,"US");
("PAPB",5658059,(-16967466),125,"US");
("PAPC",6525983,(-16685841),10,"US");
("PAPE",5590559,(-15916269),24,"US");
("PAPG",5679894,(-13295942),105,"US");
("PAPH",5695688,(-15863424),95,"US");
("PAPM",5901561,(-16182314),15,"US");
("PAPN",5758038,(-15758031),57,"US");
("PAPO",6834378,(-16680496),12,"US");
("PAPR",6681899,(-15063589),1099,"US");
("PAQH",5975512,(-16188548),10,"US");
("PAQT",7020788,(-15102205),38,"US");
("PARC",6811147,(-14558630),2084,"US");
("PARL",6557445,(-14479211),932,"US");
("PARS",6177977,(-16131805),51,"US");
("PARY",6472376,(-15547979),653,"US");
("PASA",6368280,(-17050838),53,"RU");
("PASC",7019245,(-14849058),64,"US");
("PASD",5531972,(-16052764),21,"US");
("PASH",6624652,(-16610451),12,"US");
("PASI",5705347,(-13537303),21,"US");
("PASK",6659730,(-15999221),13,"US");
("PASL",6171333,(-15715862),178,"US");
("PASM",6207089,(-16329988),311,"US");
("PASN",5717608,(-17021769),63,"US");
("PASO",5944496,(-15170379),29,"US");
("PASP",6181072,(-14751294),2750,"US");
("PAST",6332853,(-14913701),2409,"US");
("PASV",6110297,(-15557382),1583,"US");
("PASW",6196727,(-15120036),148,"US");
("PASX",6047496,(-15105209),113,"US");
("PASY",5271623,17409204,98,"RU");
("PATA",6517433,(-15212365),227,"US");
("PATC",6557044,(-16792392),271,"US");
("PATE",6524031,(-16634916),294,"US");
("PATG",5904889,(-16040500),21,"US");
("PATK",6232479,(-15008899),358,"US");
("PATL",6289972,(-15597694),964,"US");
("PATQ",7046618,(-15745337),96,"US");
("PATU",5282322,17317326,39,"RU");
("PATW",6339009,(-14896148),2190,"US");
("PAUK",6268293,(-16465800),10,"US");
("PAUM",6937009,(-15215805),266,"US");
("PAUN",6389802,(-16080606),68,"US");
("PAUO",6175980,(-15005729),221,"US");
("PAVA",6153724,(-16558679),75,"US");
("PAVC",5511595,(-16227422),155,"US");
("PAVD",6113260,(-14626654),118,"US");
("PAVE",6701980,(-14642612),550,"US");
("PAVL",6773917,(-16457089),13,"US");
("PAWB",6635961,(-14741383),365,"US");
("PAWD",6013742,(-14942711),22,"US");
("PAWG",5648860,(-13238250),44,"US");
("PAWI",7063565,(-16001185),41,"US");
("PAWM",6469315,(-16341521),261,"US");
("PAWN",6756712,(-16296940),88,"US");
("PAWR",6077605,(-14872498),30,"US");
("PAWS",6156885,(-14954912),354,"US");
("PAWT",7061191,(-15987187),35,"US");
("PAXK",6302814,(-14550372),2653,"US");
("PAYA",5951145,(-13966469),33,"CA");
("PCXF",6724755,(-15021140),1042,"US");
("PFAK",6089991,(-16123716),30,"US");
("PFAL",6655029,(-15263533),436,"US");
("PFCB",6008140,(-14799261),72,"US");
("PFCL",5884292,(-15855202),10,"US");
("PFEL",6461041,(-16227472),200,"US");
("PFKA",6087467,(-16252404),40,"US");
("PFKK",5943475,(-15480934),150,"US");
("PFKO",6302545,(-16353979),15,"US");
("PFKT",6533319,(-16648173),3,"US");
("PFKU",6487657,(-15772543),115,"US");
("PFKW",6080379,(-16145018),28,"US");
("PFNO",6681611,(-16103564),55,"US");
("PFSH",6437618,(-16122884),24,"US");
("PFTO",6333006,(-14296122),1640,"US");
("PFWS",5870578,(-15701191),130,"US");
("PFYU",6656756,(-14526775),433,"US");
("PGRO",1417457,14523407,607,"GU");
("PGSN",1511448,14571794,215,"MP");
("PGSZ",6540743,(-16128133),1313,"US");
("PGUA",1357532,14491649,627,"GU");
("PGUM",1347891,14478398,298,"GU");
("PGWT",1499695,14560739,271,"MP");
("PHBK",2203088,(-15978659),23,"US");
("PHDH",2157959,(-15821056),14,"US");
("PHFS",2386277,(-16628890),6,"US");
("PHHI",2147867,(-15804540),835,"US");
("PHHN",2079563,(-15601976),78,"US");
("PHJH",2095926,(-15667513),254,"US");
("PHJR",2129937,(-15808025),20,"US");
("PHKO",1975499,(-15604437),45,"US");
("PHLI",2198168,(-15933588),153,"US");
("PHLU",2120928,(-15697710),23,"US");
("PHMK",2114962,(-15710111),454,"US");
("PHMU",1999695,(-15567408),2669,"US");
("PHNG",2144381,(-15777689),22,"US");
("PHNL",2132525,(-15794323),13,"US");
("PHNY",2078069,(-15695656),1308,"US");
("PHOG",2088914,(-15643632),54,"US");
("PHSF",1976103,(-15555910),6189,"US");
("PHTO",1972138,(-15505786),38,"US");
("PHUP",2026403,(-15586539),96,"US");
("PJON",1673813,(-16952194),7,"US");
("PKMA",1133582,16231844,13,"MH");
("PKMJ",706216,17126144,6,"MH");
("PKRO",939277,16746620,9,"MH");
("PKWA",871740,16772284,9,"MH");
("PLCH",198627,(-15735937),5,"KI");
("PLFA",390045,(-15939098),20,"KI");
("PLPA",587839,(-16207352),5,"KI");
("PMDY",2819747,(-17739289),13,"US");
("PPCT",6299238,(-15607332),825,"US");
("PPIZ",6972984,(-16302772),25,"US");
("PPKA",6069939,(-16178259),24,"US");
("PTKK",745614,15183706,11,"FM");
("PTPN",698527,15820079,10,"FM");
("PTRO",736753,13453431,176,"PW");
("PTSA",535247,16295188,11,"FM");
("PTYA",949631,13807459,91,"FM");
("PWAK",1928486,16662250,14,"MH");
("QSAL",4077220,(-11390858),4206,"US");
("RCAY",2279277,12026158,34,"TW");
("RCBS",2442186,11834567,93,"TW");
("RCDC",2267197,12045010,78,"TW");
("RCDI",2485143,12123482,790,"TW");
("RCFG",2615339,11995497,232,"TW");
("RCFN",2274628,12109423,143,"TW");
("RCGI",2267836,12146509,28,"TW");
("RCKH",2257757,12033471,31,"TW");
("RCKU",2347733,12039039,85,"TW");
("RCKW",2204682,12072477,46,"TW");
("RCLY",2203249,12152901,44,"TW");
("RCMQ",2428145,12061970,663,"TW");
("RCMT",2621950,12000011,41,"TW");
("RCNN",2296428,12020717,63,"TW");
("RCPO",2480637,12092669,26,"TW");
("RCQC",2355585,11962374,103,"TW");
("RCQS",2278080,12117282,128,"TW");
("RCSQ",2269769,12047067,97,"TW");
("RCSS",2507005,12153962,18,"TW");
("RCTP",2507308,12121557,106,"TW");
("RCWA",2336529,11950199,115,"TW");
("RCYU",2401261,12161097,52,"TW");
("RJAA",3577439,14036829,141,"JP");
("RJAF",3617566,13792094,2182,"JP");
("RJAH",3616961,14041031,105,"JP");
("RJAK",3602994,14019362,85,"JP");
("RJAM",2428532,15397424,22,"MP");
("RJAN",3437041,13926431,94,"JP");
("RJAW",2477953,14131058,384,"JP");
("RJAZ",3418695,13913244,454,"JP");
("RJBB",3442859,13520621,26,"JP");
("RJBD",3366932,13535774,298,"JP");
("RJBE",3463164,13521031,22,"JP");
("RJBH",3435964,13240919,15,"JP");
("RJBK",3459042,13392606,3,"JP");
("RJBT",3550745,13478665,584,"JP");
("RJCB",4274413,14321203,505,"JP");
("RJCC",4276164,14169282,82,"JP");
("RJCH",4177434,14080489,151,"JP");
("RJCJ",4281101,14166561,87,"JP");
("RJCK",4305147,14418748,327,"JP");
("RJCM",4389181,14416261,135,"JP");
("RJCN",4357450,14494808,234,"JP");
("RJCO",4312056,14137416,25,"JP");
("RJCR",4545513,14103919,90,"JP");
("RJCT",4289425,14315078,281,"JP");
("RJCW",4540087,14178901,30,"JP");
("RJDA",3248506,13015449,340,"JP");
("RJDB",3374319,12978465,41,"JP");
("RJDC",3392467,13126680,23,"JP");
("RJDK",3301373,12919352,263,"JP");
("RJDM",3331947,13041385,53,"JP");
("RJDO",3319079,12909423,25,"JP");
("RJDT",3429105,12932339,213,"KR");
("RJEB",4430992,14339470,80,"JP");
("RJEC",4368084,14244083,721,"JP");
("RJEO",4207497,13942520,161,"JP");
("RJER",4523760,14117799,112,"JP");
("RJFA",3388590,13064614,98,"JP");
("RJFC",3039019,13065398,124,"JP");
("RJFE",3265815,12882818,273,"JP");
("RJFF",3359692,13044319,32,"JP");
("RJFG",3061000,13098285,768,"JP");
("RJFK",3181511,13071148,906,"JP");
("RJFM",3187618,13143528,20,"JP");
("RJFN",3208628,13143773,259,"JP");
("RJFO",3346598,13173701,19,"JP");
("RJFR",3385759,13103231,21,"JP");
("RJFS",3315117,13029164,5,"JP");
("RJFT",3283151,13084058,642,"JP");
("RJFU",3292702,12990271,15,"JP");
("RJFY",3136489,13082730,214,"JP");
("RJFZ",3368175,13102858,55,"JP");
("RJGG",3487389,13680168,15,"JP");
("RJKA",2842253,12970808,27,"JP");
("RJKB",2742580,12870094,101,"JP");
("RJKI",2831842,12992117,21,"JP");
("RJKN",2782741,12888019,17,"JP");
("RJNA",3526644,13691742,52,"JP");
("RJNF",3614878,13622340,19,"JP");
("RJNG",3539455,13685487,128,"JP");
("RJNH",3475038,13768917,150,"JP");
("RJNK",3638771,13639412,36,"JP");
("RJNO",3617501,13331324,311,"JP");
("RJNT",3663966,13718479,95,"JP");
("RJNW",3728957,13695157,718,"JP");
("RJNY",3481232,13828987,23,"JP");
("RJOA",3443603,13290312,1088,"JP");
("RJOB",3475002,13384136,806,"JP");
("RJOC",3540912,13288050,15,"JP");
("RJOE",3452812,13667375,20,"JP");
("RJOF",3403803,13153714,7,"JP");
("RJOH",3548750,13322582,20,"JP");
("RJOI",3413300,13223364,7,"JP");
("RJOK",3355334,13365916,42,"JP");
("RJOM",3383458,13268937,25,"JP");
("RJOO",3479133,13542871,50,"JP");
("RJOR",3553064,13415405,65,"JP");
("RJOS",3413474,13459613,26,"JP");
("RJOT",3421074,13400281,607,"JP");
("RJOW",3467869,13177976,184,"JP");
("RJOY",3459561,13558937,39,"JP");
("RJOZ",3405493,13104798,13,"JP");
("RJSA",4072494,14067461,664,"JP");
("RJSC",3840295,14037002,353,"JP");
("RJSD",3806070,13840808,88,"JP");
("RJSF",3721617,14042743,1220,"JP");
("RJSH",4054755,14145529,152,"JP");
("RJSI",3941766,14113267,297,"JP");
("RJSK",3961694,14020421,313,"JP");
("RJSM",4070444,14135038,119,"JP");
("RJSN",3795684,13909562,29,"JP");
("RJSO",4122771,14113393,24,"JP");
("RJSR",4019344,14035986,292,"JP");
("RJSS",3813877,14089872,15,"JP");
("RJST",3839517,14119819,7,"JP");
("RJSU",3823464,14092341,23,"JP");
("RJSY",3881072,13977587,86,"JP");
("RJTA",3544364,13945035,205,"JP");
("RJTC",3570533,13940312,313,"JP");
("RJTE",3498686,13982747,10,"JP");
("RJTF",3566812,13952927,135,"JP");
("RJTH",3311195,13977585,303,"JP");
("RJTJ",3585001,13940698,295,"JP");
("RJTK",3539033,13990726,10,"JP");
("RJTL",3578881,14001242,98,"JP");
("RJTO",3477417,13935693,125,"JP");
("RJTQ",3406641,13955776,67,"JP");
("RJTR",3551122,13939320,360,"JP");
("RJTT",3552396,13980349,20,"JP");
("RJTU",3650690,13987022,334,"JP");
("RJTY",3576339,13934536,463,"JP");
("RKJJ",3511572,12680011,39,"KR");
("RKJK",3591589,12661301,29,"KR");
("RKJM",3475432,12637319,23,"KR");
("RKJU",3587600,12711175,96,"KR");
("RKJY",3485109,12761257,53,"KR");
("RKND",3813713,12859308,92,"KR");
("RKNN",3774901,12892917,35,"KR");
("RKNW",3742703,12795358,329,"KR");
("RKNY",3807006,12866019,241,"KR");
("RKPC",3350038,12646929,118,"KR");
("RKPD",3338289,12671178,1171,"KR");
("RKPE",3514579,12869452,8,"KR");
("RKPK",3519387,12893513,6,"KR");
("RKPS",3508217,12805728,25,"KR");
("RKPU",3560247,12935099,45,"KR");
("RKRA",3783581,12698934,287,"KR");
("RKRB",3747686,12674646,92,"KR");
("RKRG",3750333,12762833,230,"KR");
("RKRK",3781362,12735632,400,"KR");
("RKRN",3719739,12746596,255,"KR");
("RKRO",3786247,12717106,328,"KR");
("RKRP",3776463,12679195,65,"KR");
("RKSG",3696968,12702052,51,"KR");
("RKSI",3748179,12643634,23,"KR");
("RKSM",3743250,12711067,92,"KR");
("RKSO",3708934,12701424,40,"KR");
("RKSS",3757030,12677842,58,"KR");
("RKSW",3724957,12699821,88,"KR");
("RKTE",3657321,12749739,258,"KR");
("RKTH",3598774,12940867,70,"KR");
("RKTI",3704269,12788273,281,"KR");
("RKTN",3590061,12864583,116,"KR");
("RKTP",3669397,12647861,39,"KR");
("RKTU",3671013,12748684,191,"KR");
("RKTY",3663167,12833952,354,"KR");
("RKUC",3657446,12729153,82,"KR");
("RKUL",3627069,12710733,104,"KR");
("ROAH",2620934,12764523,12,"JP");
("RODE",2672092,12775942,184,"JP");
("RODN",2634624,12775149,143,"JP");
("ROIG",2433950,12418202,93,"JP");
("ROKJ",2635509,12671019,23,"JP");
("ROKR",2616790,12729638,156,"JP");
("ROMD",2584003,13126148,167,"JP");
("ROMY",2477574,12528900,150,"JP");
("RORA",2659246,12724263,38,"JP");
("RORE",2671658,12777251,246,"JP");
("RORH",2405761,12380640,43,"JP");
("RORK",2593797,13132026,80,"JP");
("RORS",2484004,12514135,0,"JP");
("RORT",2466056,12467444,36,"JP");
("RORY",2704839,12839708,52,"JP");
("ROTM",2626688,12774479,247,"JP");
("ROYN",2446522,12297072,70,"JP");
("RPLA",1298045,12142537,92,"PH");
("RPLB",1478969,12025959,64,"PH");
("RPLC",1517059,12055209,484,"PH");
("RPLI",1816364,12052987,25,"PH");
("RPLL",1449772,12099999,75,"PH");
("RPLP",1315152,12372073,66,"PH");
("RPLS",1449132,12089389,8,"PH");
("RPLU",1385305,12010011,43,"PH");
("RPLV",1543006,12108560,200,"PH");
("RPMA",637191,12474888,659,"PH");
("RPMB",609897,12523333,28,"PH");
("RPMC",716726,12420120,189,"PH");
("RPMD",711667,12563549,96,"PH");
("RPME",895528,12547001,141,"PH");
("RPMF",819262,12631729,12,"PH");
("RPMG",859301,12333182,12,"PH");
("RPMH",925171,12470192,53,"PH");
("RPMI",812458,12421272,1300,"PH");
("RPMJ",605354,12100534,118,"PH");
("RPML",840480,12460873,601,"PH");
("RPMN",504036,11974084,15,"PH");
("RPMO",817188,12383744,75,"PH");
("RPMP",781975,12345612,5,"PH");
("RPMQ",695489,12626810,156,"PH");
("RPMR",607261,12509443,505,"PH");
("RPMS",976521,12547822,20,"PH");
("RPMW",906622,12616852,16,"PH");
("RPMZ",692321,12204786,33,"PH");
("RPNS",985347,12601307,10,"PH");
("RPSM",1019218,12478101,328,"PH");
("RPUB",1637487,12061107,4251,"PH");
("RPUD",1412652,12297567,10,"PH");
("RPUF",1497627,12048717,151,"PH");
("RPUG",1603351,12023641,7,"PH");
("RPUH",1236366,12103849,14,"PH");
("RPUL",1394917,12112130,1220,"PH");
("RPUM",1321376,12060380,13,"PH");
("RPUN",1358040,12326571,142,"PH");
("RPUO",2044828,12197533,291,"PH");
("RPUQ",1755016,12035436,16,"PH");
("RPUR",1572646,12149603,108,"PH");
("RPUS",1659018,12030271,13,"PH");
("RPUT",1765251,12173269,70,"PH");
("RPUV",1357288,12419946,121,"PH");
("RPUW",1336722,12182346,32,"PH");
("RPUY",1693369,12174722,200,"PH");
("RPUZ",1661909,12124670,820,"PH");
("RPVA",1123727,12502840,10,"PH");
("RPVB",1063579,12292381,25,"PH");
("RPVC",1207919,12454349,12,"PH");
("RPVD",933415,12329197,15,"PH");
("RPVE",1192255,12195017,7,"PH");
("RPVF",1249803,12463144,6,"PH");
("RPVG",1103169,12573284,7,"PH");
("RPVI",1070435,12254145,27,"PH");
("RPVJ",1236508,12362581,26,"PH");
("RPVK",1167291,12236876,14,"PH");
("RPVM",1029695,12396878,31,"PH");
("RPVO",1106638,12456590,83,"PH");
("RPVP",974263,11874689,71,"PH");
("RPVR",1160466,12274664,10,"PH");
("RPVS",1077148,12193341,23,"PH");
("RPVT",967202,12385234,38,"PH");
("RPVU",1230532,12208175,10,"PH");
("RPVV",1212104,12009546,148,"PH");
("RPVW",1166927,12547682,7,"PH");
("SAAA",(-3422202),(-5944349),98,"AR");
("SAAC",(-3130335),(-5800057),112,"UY");
("SAAG",(-3301175),(-5861375),75,"AR");
("SAAJ",(-3453917),(-6093128),262,"AR");
("SAAN",(-3392284),(-6065240),236,"AR");
("SAAP",(-3180414),(-6048197),243,"AR");
("SAAR",(-3291677),(-6078765),85,"AR");
("SAAU",(-3183550),(-5909722),131,"AR");
("SAAV",(-3172131),(-6081636),56,"AR");
("SABE",(-3455416),(-5842526),17,"AR");
("SACA",(-3143423),(-6426182),1594,"AR");
("SACC",(-3099535),(-6453719),3734,"AR");
("SACD",(-3149192),(-6414576),1414,"AR");
("SACE",(-3145316),(-6428570),1646,"AR")].
(** openap/data/nav/airports.csv:7002-7501 *)
Definition apts14 : list apt := [
("SACO",(-3129584),(-6420811),1604,"AR");
("SACT",(-3035444),(-6629500),1503,"AR");
("SACZ",(-3742726),(-6188408),768,"AR");
("SADF",(-3445986),(-5859704),10,"AR");
("SADJ",(-3454728),(-5879504),105,"AR");
("SADL",(-3497554),(-5789501),72,"AR");
("SADM",(-3468887),(-5864646),95,"AR");
("SADO",(-3452642),(-5867248),78,"AR");
("SADP",(-3460119),(-5861715),59,"AR");
("SADQ",(-3470113),(-5824534),7,"AR");
("SADR",(-3466741),(-5875414),49,"AR");
("SADS",(-3473066),(-5859907),59,"AR");
("SADZ",(-3472755),(-5850552),10,"AR");
("SAEM",(-3821739),(-5787120),42,"AR");
("SAEZ",(-3481918),(-5855340),66,"AR");
("SAHC",(-3744082),(-7022949),2788,"AR");
("SAHE",(-3785674),(-7101464),5435,"AR");
("SAHR",(-3899994),(-6763291),853,"AR");
("SAHS",(-3738913),(-6891282),1969,"AR");
("SAHZ",(-3897407),(-7012615),3330,"AR");
("SAMA",(-3505993),(-6770057),1489,"AR");
("SAME",(-3281817),(-6879271),2310,"AR");
("SAMI",(-3306752),(-6851038),2154,"AR");
("SAMM",(-3548386),(-6958275),4683,"AR");
("SAMP",(-3078423),(-5965521),197,"AR");
("SAMQ",(-3285745),(-6887098),2647,"AR");
("SAMR",(-3458454),(-6841546),2470,"AR");
("SANC",(-2860554),(-6575394),1522,"AR");
("SANE",(-2777530),(-6431583),656,"AR");
("SANI",(-2803184),(-6758479),3968,"AR");
("SANL",(-2939431),(-6680357),1433,"AR");
("SANO",(-2921453),(-6744008),3099,"AR");
("SANR",(-2750806),(-6493663),919,"AR");
("SANT",(-2685366),(-6510709),1494,"AR");
("SANU",(-3156036),(-6841828),1959,"AR");
("SANW",(-2987089),(-6183782),282,"AR");
("SAOC",(-3309916),(-6427753),1381,"AR");
("SAOD",(-3193885),(-6514680),1915,"AR");
("SAOL",(-3413012),(-6336223),449,"AR");
("SAOM",(-3268559),(-6216376),361,"AR");
("SAOR",(-3372978),(-6538845),1591,"AR");
("SAOS",(-3239544),(-6518983),2019,"AR");
("SAOU",(-3325998),(-6635458),2329,"AR");
("SARC",(-2745484),(-5876331),203,"AR");
("SARE",(-2746167),(-5906113),173,"AR");
("SARF",(-2622008),(-5823192),194,"AR");
("SARI",(-2573104),(-5448838),916,"AR");
("SARL",(-2967935),(-5715393),230,"AR");
("SARM",(-3026457),(-5763995),174,"AR");
("SARP",(-2739602),(-5597059),430,"AR");
("SARS",(-2676407),(-6049642),307,"AR");
("SASA",(-2487283),(-6548994),4088,"AR");
("SASJ",(-2438117),(-6510508),3019,"AR");
("SASO",(-2315931),(-6433047),1168,"AR");
("SASQ",(-2215111),(-6557556),11414,"AR");
("SAST",(-2262589),(-6379414),1473,"AR");
("SATC",(-2530450),(-5773306),197,"AR");
("SATD",(-2640389),(-5457417),685,"AR");
("SATG",(-2911408),(-5922577),125,"AR");
("SATI",(-2629128),(-5363218),2673,"AR");
("SATO",(-2751043),(-5512708),1125,"AR");
("SATR",(-2921043),(-5969429),161,"AR");
("SATU",(-2978016),(-5797920),229,"AR");
("SAVA",(-4019465),(-7001650),2128,"AR");
("SAVB",(-4193641),(-7153084),1131,"AR");
("SAVC",(-4578778),(-6748344),190,"AR");
("SAVD",(-4203516),(-7115871),2359,"AR");
("SAVE",(-4290979),(-7114802),2621,"AR");
("SAVH",(-4653790),(-6897546),1082,"AR");
("SAVJ",(-4132254),(-6958717),2927,"AR");
("SAVM",(-4557778),(-6907681),88,"AR");
("SAVN",(-4074654),(-6504305),85,"AR");
("SAVQ",(-4125177),(-6873952),2910,"AR");
("SAVR",(-4501600),(-7080863),2287,"AR");
("SAVS",(-4159922),(-6535453),689,"AR");
("SAVT",(-4321458),(-6528504),141,"AR");
("SAVV",(-4086697),(-6301114),20,"AR");
("SAVY",(-4276512),(-6511568),426,"AR");
("SAWA",(-5033296),(-7224800),732,"AR");
("SAWB",(-6424124),(-5664455),760,"FK");
("SAWC",(-5028145),(-7207104),668,"AR");
("SAWD",(-4773814),(-6591316),266,"AR");
("SAWE",(-5377806),(-6776453),65,"AR");
("SAWG",(-5161010),(-6933816),61,"AR");
("SAWH",(-5484420),(-6831752),91,"AR");
("SAWJ",(-4930851),(-6781611),190,"AR");
("SAWM",(-4570376),(-7026859),1785,"AR");
("SAWO",(-5481542),(-6830450),20,"AR");
("SAWP",(-4653515),(-7098896),1410,"AR");
("SAWR",(-4878170),(-7017049),1168,"AR");
("SAWS",(-4405637),(-7044224),2395,"AR");
("SAWT",(-5159330),(-7222915),899,"AR");
("SAWU",(-5001899),(-6859284),364,"AR");
("SAZA",(-3684632),(-5988536),478,"AR");
("SAZB",(-3871547),(-6215779),246,"AR");
("SAZC",(-3744027),(-6189065),768,"AR");
("SAZD",(-3631843),(-5772135),32,"AR");
("SAZE",(-3759370),(-6238278),994,"AR");
("SAZF",(-3689751),(-6022470),551,"AR");
("SAZG",(-3568619),(-6376279),459,"AR");
("SAZH",(-3838153),(-6033021),400,"AR");
("SAZI",(-3619181),(-6107815),308,"AR");
("SAZJ",(-3769523),(-5978305),696,"AR");
("SAZL",(-3653566),(-5672320),10,"AR");
("SAZM",(-3792886),(-5758393),71,"AR");
("SAZN",(-3894896),(-6817053),895,"AR");
("SAZO",(-3848287),(-5881562),72,"AR");
("SAZP",(-3583785),(-6185755),278,"AR");
("SAZQ",(-3900298),(-6413689),276,"AR");
("SAZR",(-3659848),(-6427818),630,"AR");
("SAZS",(-4114677),(-7117026),2776,"AR");
("SAZT",(-3724567),(-5922992),574,"AR");
("SAZV",(-3723372),(-5703928),32,"AR");
("SAZW",(-3894058),(-6927433),2133,"AR");
("SAZX",(-3539611),(-6090501),243,"AR");
("SAZY",(-4007958),(-7115094),2569,"AR");
("SBAA",(-835263),(-4930851),653,"BR");
("SBAE",(-2214960),(-4907297),1949,"BR");
("SBAF",(-2287933),(-4339325),110,"BR");
("SBAM",207130,(-5086568),45,"GF");
("SBAN",(-1623849),(-4897327),3728,"BR");
("SBAQ",(-2180506),(-4813764),2334,"BR");
("SBAR",(-1098367),(-3708042),23,"BR");
("SBAT",(-987686),(-5610986),947,"BR");
("SBAU",(-2114977),(-5042948),1361,"BR");
("SBAX",(-1955724),(-4696683),3276,"BR");
("SBBE",(-138808),(-4848497),54,"BR");
("SBBG",(-3139521),(-5411794),600,"BR");
("SBBH",(-1984721),(-4396182),2589,"BR");
("SBBI",(-2539926),(-4923469),3057,"BR");
("SBBP",(-2297484),(-4654121),2887,"BR");
("SBBQ",(-2125958),(-4376364),3657,"BR");
("SBBR",(-1588066),(-4793999),3479,"BR");
("SBBT",(-2058803),(-4860198),1898,"BR");
("SBBU",(-2234139),(-4905994),2025,"BR");
("SBBV",284077,(-6070090),275,"BR");
("SBBW",(-1586589),(-5239470),1147,"BR");
("SBBZ",(-2277453),(-4196822),10,"BR");
("SBCA",(-2499515),(-5350641),2473,"BR");
("SBCB",(-2292359),(-4208230),14,"BR");
("SBCC",(-933157),(-5497699),1762,"BR");
("SBCD",(-2679681),(-5094081),3376,"BR");
("SBCF",(-1962356),(-4397828),2715,"BR");
("SBCG",(-2047754),(-5468069),1833,"BR");
("SBCH",(-2713246),(-5266891),2146,"BR");
("SBCI",(-732106),(-4746681),565,"BR");
("SBCJ",(-611883),(-5001253),2038,"BR");
("SBCM",(-2872745),(-4943214),93,"BR");
("SBCN",(-1772908),(-4861541),2247,"BR");
("SBCO",(-2994180),(-5115782),26,"BR");
("SBCP",(-2170313),(-4130712),57,"BR");
("SBCR",(-1901432),(-5768223),461,"BR");
("SBCT",(-2552213),(-4918285),2988,"BR");
("SBCV",(-1765660),(-3925612),36,"BR");
("SBCX",(-2919070),(-5119460),2472,"BR");
("SBCY",(-1564372),(-5612163),609,"BR");
("SBCZ",(-759934),(-7278035),637,"BR");
("SBDB",(-2122058),(-5645847),1180,"BR");
("SBDN",(-2217366),(-5143478),1476,"BR");
("SBDO",(-2220684),(-5492978),1503,"BR");
("SBEG",(-303858),(-6006189),264,"BR");
("SBEK",(-623643),(-5778332),324,"BR");
("SBES",(-2282065),(-4210073),61,"BR");
("SBFI",(-2558931),(-5449576),787,"AR");
("SBFL",(-2766560),(-4855128),19,"BR");
("SBFN",(-385435),(-3243165),180,"BR");
("SBFT",(-2028458),(-4919251),1599,"BR");
("SBFU",(-2069773),(-4634079),2413,"BR");
("SBFZ",(-377334),(-3854365),82,"BR");
("SBGL",(-2280193),(-4325512),28,"BR");
("SBGM",(-1077850),(-6528672),478,"BR");
("SBGO",(-1662634),(-4923081),2450,"BR");
("SBGP",(-2179611),(-4840473),1998,"BR");
("SBGR",(-2343451),(-4648432),2459,"BR");
("SBGU",(-2539071),(-5152731),3494,"BR");
("SBGV",(-1889972),(-4198688),561,"BR");
("SBGW",(-2279861),(-4520465),1761,"BR");
("SBHT",(-325948),(-5226107),368,"BR");
("SBIC",(-312298),(-5848651),142,"BR");
("SBIH",(-424813),(-5600511),110,"BR");
("SBIL",(-1481617),(-3904046),15,"BR");
("SBIP",(-1947853),(-4249242),784,"BR");
("SBIT",(-1843706),(-4921583),1630,"BR");
("SBIZ",(-553610),(-4746663),431,"BR");
("SBJC",(-140933),(-4846548),52,"BR");
("SBJD",(-2317676),(-4694578),2484,"BR");
("SBJF",(-2179843),(-4338749),2989,"BR");
("SBJI",(-1087834),(-6184906),598,"BR");
("SBJP",(-714026),(-3495867),215,"BR");
("SBJR",(-2299183),(-4337020),10,"BR");
("SBJU",(-721609),(-3927772),1392,"BR");
("SBJV",(-2621982),(-4880376),15,"BR");
("SBKG",(-726572),(-3590228),1646,"BR");
("SBKP",(-2299843),(-4714702),2170,"BR");
("SBLE",(-1247843),(-4128570),1676,"BR");
("SBLJ",(-2777629),(-5028561),3065,"BR");
("SBLO",(-2333033),(-5113977),1867,"BR");
("SBLP",(-1325696),(-4341006),1454,"BR");
("SBLS",(-1965942),(-4390486),2795,"BR");
("SBMA",(-537434),(-4914500),357,"BR");
("SBMC",(-1355403),(-4819893),1401,"BR");
("SBMD",(-89370),(-5260937),677,"BR");
("SBME",(-2234760),(-4176924),8,"BR");
("SBMG",(-2347808),(-5202647),1788,"BR");
("SBMK",(-1670579),(-4382867),2191,"BR");
("SBML",(-2220429),(-4992829),2122,"BR");
("SBMN",(-314857),(-5999644),267,"BR");
("SBMO",(-950863),(-3580332),387,"BR");
("SBMQ",4551,(-5108013),56,"BR");
("SBMS",(-521013),(-3736817),77,"BR");
("SBMT",(-2350783),(-4664546),2368,"BR");
("SBMY",(-581574),(-6128211),174,"BR");
("SBMZ",(-174629),(-5223941),53,"BR");
("SBNF",(-2688440),(-4865840),18,"BR");
("SBNM",(-2828104),(-5417780),1056,"BR");
("SBNT",(-590184),(-3525161),169,"BR");
("SBOI",385016,(-5179794),63,"GF");
("SBPA",(-2999414),(-5118327),11,"BR");
("SBPB",(-289643),(-4174104),16,"BR");
("SBPC",(-2184495),(-4657360),4135,"BR");
("SBPF",(-2824685),(-5233578),2376,"BR");
("SBPJ",(-1028524),(-4836642),774,"BR");
("SBPK",(-3172281),(-5233618),59,"BR");
("SBPL",(-935763),(-4058306),1263,"BR");
("SBPN",(-1072572),(-4840414),870,"BR");
("SBPP",(-2255817),(-5570597),2156,"PY");
("SBPR",(-1991080),(-4399490),3044,"BR");
("SBPS",(-1644108),(-3908989),168,"BR");
("SBPV",(-872012),(-6390164),290,"BR");
("SBQV",(-1485804),(-4086978),2998,"BR");
("SBRB",(-987446),(-6790237),634,"BR");
("SBRF",(-811388),(-3492730),33,"BR");
("SBRJ",(-2291655),(-4316255),11,"BR");
("SBRP",(-2112508),(-4777709),1802,"BR");
("SBSC",(-2294379),(-4372459),10,"BR");
("SBSJ",(-2321968),(-4587193),2120,"BR");
("SBSL",(-259689),(-4424338),178,"BR");
("SBSM",(-2971054),(-5370385),287,"BR");
("SBSN",(-242417),(-5480344),198,"BR");
("SBSP",(-2361984),(-4666145),2631,"BR");
("SBSR",(-2082116),(-4941267),1784,"BR");
("SBST",(-2391984),(-4629105),10,"BR");
("SBSV",(-1290781),(-3834371),64,"BR");
("SBTA",(-2304386),(-4552208),1908,"BR");
("SBTB",(-149171),(-5640371),287,"BR");
("SBTC",(-1536378),(-3899809),20,"BR");
("SBTD",(-2469386),(-5369762),1843,"BR");
("SBTE",(-506982),(-4282246),219,"BR");
("SBTF",(-337560),(-6473072),184,"BR");
("SBTK",(-815114),(-7078699),646,"BR");
("SBTL",(-2432589),(-5065192),2610,"BR");
("SBTR",(-2942025),(-4981478),33,"BR");
("SBTS",222242,(-5595314),1127,"GF");
("SBTT",(-425157),(-6994463),279,"PE");
("SBTU",(-379503),(-4972092),830,"BR");
("SBTV",(-1653668),(-3911340),174,"BR");
("SBUA",(-15709),(-6699352),249,"BR");
("SBUF",(-939734),(-3825795),883,"BR");
("SBUG",(-2978280),(-5704544),256,"BR");
("SBUL",(-1889096),(-4822916),3094,"BR");
("SBUP",(-2077666),(-5157284),1169,"BR");
("SBUR",(-1975819),(-4796911),2655,"BR");
("SBUY",(-488449),(-6536224),210,"BR");
("SBVG",(-2159641),(-4547592),3028,"BR");
("SBVH",(-1270574),(-6010138),2018,"BR");
("SBVT",(-2026234),(-4029332),11,"BR");
("SBYA",60333,(-6919174),345,"CO");
("SBYS",(-2199405),(-4734115),1968,"BR");
("SBZM",(-2151953),(-4318326),1348,"BR");
("SCAC",(-4189648),(-7379652),374,"CL");
("SCAK",(-3690424),(-7160148),2361,"CL");
("SCAN",(-3281703),(-7065280),2457,"CL");
("SCAR",(-1835783),(-7034215),167,"CL");
("SCAS",(-4540033),(-7267495),30,"CL");
("SCAT",(-2725139),(-7078012),670,"CL");
("SCBA",(-4591622),(-7170564),1654,"CL");
("SCBB",(-3758848),(-7250384),249,"CL");
("SCBE",(-2213589),(-7006801),3475,"CL");
("SCBQ",(-3356902),(-7069315),1844,"CL");
("SCCC",(-4658015),(-7169380),1069,"CL");
("SCCF",(-2249736),(-6891757),7543,"CL");
("SCCH",(-3658806),(-7203830),495,"CL");
("SCCI",(-5300414),(-7087472),139,"CL");
("SCCL",(-2707634),(-7080107),180,"CL");
("SCCM",(-3982555),(-7208737),479,"CL");
("SCCT",(-3530370),(-7238537),43,"CL");
("SCCU",(-3816185),(-7142683),2132,"AR");
("SCCY",(-4559904),(-7211317),1020,"CL");
("SCDA",(-2052011),(-7018047),155,"CL");
("SCDQ",(-3752287),(-7172713),1902,"CL");
("SCDW",(-5360193),(-7048398),160,"CL");
("SCEC",(-2915019),(-7089054),3678,"CL");
("SCEL",(-3337195),(-7080372),1550,"CL");
("SCER",(-3279523),(-7152409),12,"CL");
("SCES",(-2631134),(-6977672),5240,"CL");
("SCFA",(-2345613),(-7044663),455,"CL");
("SCFM",(-5324983),(-7033691),104,"CL");
("SCFT",(-4318818),(-7185696),1148,"CL");
("SCFX",(-2628916),(-8010474),165,"CL");
("SCGA",(-4000669),(-7369804),118,"CL");
("SCGB",(-3797828),(-7293206),272,"CL");
("SCGE",(-3739411),(-7242461),374,"CL");
("SCGO",(-3779754),(-7268793),240,"CL");
("SCGY",(-3904918),(-7199437),1312,"CL");
("SCGZ",(-5493096),(-6763752),88,"AR");
("SCHL",4974875,(-12215354),42,"CA");
("SCHR",(-4724408),(-7259514),643,"CL");
("SCIE",(-3678203),(-7306857),26,"CL");
("SCIM",(-3838646),(-7386805),20,"CL");
("SCIP",(-2715796),(-10943667),227,"CL");
("SCIR",(-3366204),(-7893269),433,"CL");
("SCJO",(-4060487),(-7306667),187,"CL");
("SCKO",(-3799657),(-7225100),1226,"CL");
("SCKP",(-2073748),(-6868515),12468,"CL");
("SCKT",(-3649760),(-7268245),216,"CL");
("SCLB",(-3766168),(-7362987),587,"CL");
("SCLC",(-3337623),(-7058213),2247,"CL");
("SCLD",(-4186351),(-7193915),997,"AR");
("SCLL",(-2859546),(-7076313),1725,"CL");
("SCLN",(-3585722),(-7154746),587,"CL");
("SCLY",(-3721897),(-7323795),32,"CL");
("SCMB",(-2355972),(-7039944),131,"CL");
("SCMK",(-4389092),(-7373763),35,"CL");
("SCML",(-3886103),(-7181905),1388,"CL");
("SCNM",(-3777810),(-7338389),252,"CL");
("SCNT",(-5166756),(-7253943),217,"CL");
("SCOH",(-4846458),(-7256338),899,"CL");
("SCOL",(-4068853),(-7234821),676,"CL");
("SCON",(-4314027),(-7364132),39,"CL");
("SCOS",(-4054340),(-7315920),79,"CL");
("SCOT",(-3067796),(-7140558),787,"CL");
("SCPC",(-3929110),(-7192563),853,"CL");
("SCPE",(-2291556),(-6816534),7960,"CL");
("SCPF",(-4145858),(-7292013),367,"CL");
("SCPH",(-4437875),(-7259173),43,"CL");
("SCPI",(-3659076),(-7181017),804,"CL");
("SCPL",(-4013021),(-7266155),700,"CL");
("SCPP",(-3783682),(-7201257),1680,"CL");
("SCPQ",(-4233130),(-7371498),567,"CL");
("SCPU",(-4105953),(-7201105),900,"AR");
("SCPV",(-4134594),(-7294849),430,"CL");
("SCQC",(-3833739),(-7258999),823,"CL");
("SCQI",(-3874057),(-7120206),3725,"AR");
("SCQK",(-3836516),(-7349023),220,"CL");
("SCQT",(-3009149),(-7136462),140,"CL");
("SCQY",(-3844981),(-7136066),3182,"AR");
("SCRA",(-2633182),(-7061334),97,"CL");
("SCRG",(-3417986),(-7078106),1446,"CL");
("SCRM",(-6218828),(-5899830),147,"FK");
("SCSB",(-5273916),(-6933939),105,"AR");
("SCSE",(-2991241),(-7120854),481,"CL");
("SCSF",(-3273996),(-7070657),2159,"CL");
("SCSH",(-3906627),(-7317176),82,"CL");
("SCSL",4945200,(-12222750),262,"CA");
("SCSN",(-3365867),(-7161929),246,"CL");
("SCST",(-4248600),(-7377467),144,"CL");
("SCTA",(-3774116),(-7171090),1817,"CL");
("SCTB",(-3346128),(-7054803),2129,"CL");
("SCTC",(-3876980),(-7264610),304,"CL");
("SCTE",(-4142708),(-7309617),293,"CL");
("SCTL",(-3538174),(-7160554),371,"CL");
("SCTN",(-4292895),(-7270610),13,"CL");
("SCTO",(-3825009),(-7235049),1147,"CL");
("SCTR",(-3827466),(-7266304),812,"CL");
("SCTT",(-2555931),(-7037819),2580,"CL");
("SCVD",(-3964054),(-7308654),59,"CL");
("SCVL",(-3979111),(-7324111),13,"CL");
("SCVM",(-3295445),(-7148601),461,"CL");
("SCVO",(-3823175),(-7248881),978,"CL");
("SCXR",(-4032001),(-7222688),328,"CL");
("SDAA",(-2233676),(-4736431),2247,"BR");
("SDAD",(-2169800),(-5110309),1394,"BR");
("SDAE",(-2258120),(-4790029),1858,"BR");
("SDAF",(-2215759),(-4772403),2762,"BR");
("SDAG",(-2297638),(-4431205),9,"BR");
("SDAI",(-2275532),(-4727483),2085,"BR");
("SDAJ",(-2084396),(-5079436),1126,"BR");
("SDAL",(-2181638),(-4790700),2434,"BR");
("SDAM",(-2285520),(-4711217),2008,"BR");
("SDAN",(-2224488),(-4826160),1680,"BR");
("SDAO",(-1402517),(-5654114),1542,"BR");
("SDAS",(-2127862),(-5128854),1141,"BR");
("SDAY",(-2146520),(-4836981),2034,"BR");
("SDBA",(-2087636),(-4759077),2890,"BR");
("SDBB",(-2089732),(-4847977),1942,"BR");
("SDBE",(-220978),(-4881939),66,"BR");
("SDBI",(-2128187),(-5033081),1394,"BR");
("SDBK",(-2294626),(-4846826),3012,"BR");
("SDBN",(-2369148),(-4755667),2316,"BR");
("SDBP",(-2297445),(-4654049),2887,"BR");
("SDBU",(-2163797),(-5330745),1201,"BR");
("SDBV",(-2486877),(-4776025),26,"BR");
("SDBY",(-2206884),(-4871318),1591,"BR");
("SDCA",(-2403136),(-4836093),2402,"BR");
("SDCC",(-2121721),(-5041111),1253,"BR");
("SDCD",(-2115303),(-4899262),1841,"BR");
("SDCE",(-1744354),(-4493864),1766,"BR");
("SDCG",(-347405),(-6896119),335,"BR");
("SDCJ",(-1768540),(-5359449),2221,"BR");
("SDCL",(-2315226),(-4920869),2181,"BR");
("SDCM",(-1286553),(-4616807),2957,"BR");
("SDCO",(-2347177),(-4749234),2077,"BR");
("SDCR",(-2406940),(-4682978),39,"BR");
("SDCT",(-2222857),(-4697688),2237,"BR");
("SDCU",(-2255442),(-4212060),18,"BR");
("SDCW",(-2032373),(-4883245),1706,"BR");
("SDCZ",(-2293629),(-4410442),16,"BR");
("SDDB",(-2260961),(-5009929),1702,"BR");
("SDDC",(-1596819),(-5989177),722,"BR");
("SDDE",(-801421),(-6177582),213,"BR");
("SDDI",(-2159363),(-5083706),2093,"BR");
("SDDJ",(-2084508),(-5008093),1525,"BR");
("SDDK",(-2248430),(-4998982),1886,"BR");
("SDDL",(-2330820),(-4793823),1916,"BR");
("SDDN",(-2092473),(-5138924),1247,"BR");
("SDDR",(-2146197),(-5161395),1220,"BR");
("SDDS",(-833595),(-6571217),325,"BR");
("SDDV",(-2113177),(-4884920),1860,"BR");
("SDDX",(-1988706),(-5051056),1482,"BR");
("SDEC",(-1695362),(-5357395),2572,"BR");
("SDED",(-2243956),(-4770414),2007,"BR");
("SDEE",(-2357303),(-4886691),1801,"BR");
("SDEG",(-2246546),(-5120559),1450,"BR");
("SDEJ",(-2366751),(-4807579),2037,"BR");
("SDEM",(-2209804),(-5145267),1388,"BR");
("SDEN",(-2716328),(-4862757),16,"BR");
("SDEO",(-2187286),(-4866311),1709,"BR");
("SDEP",(-2177905),(-5214780),974,"BR");
("SDER",(-2076355),(-5085879),1207,"BR");
("SDES",(-2076477),(-4786112),2372,"BR");
("SDET",(-2310855),(-4772444),1643,"BR");
("SDEX",(-1258413),(-4582975),2526,"BR");
("SDFA",(-2068164),(-5103453),1200,"BR");
("SDFB",(-2042063),(-4857012),1755,"BR");
("SDFC",(-2048428),(-4918961),1673,"BR");
("SDFD",(-2027867),(-5021842),1640,"BR");
("SDFE",(-2207167),(-5670285),633,"BR");
("SDFF",(-2185119),(-4829702),1673,"BR");
("SDFH",(-2144404),(-4737573),2318,"BR");
("SDFI",(-2165093),(-4827166),2257,"BR");
("SDFK",(-2206889),(-5216472),1233,"BR");
("SDFL",(-2356873),(-4828531),2051,"BR");
("SDFM",(-2228959),(-5226014),1082,"BR");
("SDFN",(-2347792),(-4954573),1702,"BR");
("SDFT",(-2241300),(-4681075),2152,"BR");
("SDFU",(-2187321),(-5216356),984,"BR");
("SDFX",(-915650),(-4094279),1247,"BR");
("SDFY",(-2162998),(-5081248),1280,"BR");
("SDGB",(-2027525),(-4818667),1988,"BR");
("SDGC",(-2218779),(-4965516),2182,"BR");
("SDGF",(-2236895),(-4994798),1647,"BR");
("SDGJ",(-2190947),(-4985973),1748,"BR");
("SDGK",(-2149679),(-5073575),1345,"BR");
("SDGP",(-2322382),(-4879997),2099,"BR");
("SDGR",(-2126583),(-5065263),1312,"BR");
("SDGT",(-2252343),(-5004879),1896,"BR");
("SDGU",(-2140878),(-4830491),2116,"BR");
("SDGY",(-2092576),(-5074555),1181,"BR");
("SDHC",(-2186990),(-4998141),1292,"BR");
("SDHE",(-2249464),(-4684495),2493,"BR");
("SDHP",(-2116997),(-5328723),1168,"BR");
("SDHX",(-3074818),(-5153657),131,"BR");
("SDIB",(-2216461),(-4677672),3018,"BR");
("SDIC",(-2071499),(-4568882),2657,"BR");
("SDID",(-2413306),(-4933088),2598,"BR");
("SDIG",(-2174506),(-4886108),1780,"BR");
("SDIH",(-2356496),(-4607307),2467,"BR");
("SDIL",(-2290716),(-4429231),10,"BR");
("SDIM",(-2416225),(-4678853),13,"BR");
("SDIN",(-2299878),(-4340281),3,"BR");
("SDIO",(-2160624),(-4883238),1739,"BR");
("SDIP",(-2304483),(-4577804),1913,"BR");
("SDIR",188676,(-6202128),134,"BR");
("SDIU",(-2335332),(-4732777),2231,"BR");
("SDIV",(-2037134),(-4777061),2044,"BR");
("SDIZ",(-2015945),(-4993545),1656,"BR");
("SDJA",(-2219853),(-4786696),2569,"BR");
("SDJC",(-2123326),(-4828748),2021,"BR");
("SDJF",(-2384473),(-4845145),2309,"BR");
("SDJG",(-2273206),(-4948714),1689,"BR");
("SDJL",(-2029782),(-5054626),1496,"BR");
("SDJN",(-2109849),(-4775242),1771,"BR");
("SDJO",(-2059074),(-4784606),2136,"BR");
("SDJQ",(-2083360),(-5101178),1276,"BR");
("SDJR",(-2088520),(-4939252),1804,"BR");
("SDJS",472878,(-6024502),735,"VE");
("SDJV",(-2202267),(-4684274),2500,"BR");
("SDJX",(-1310891),(-4838267),1585,"BR");
("SDJZ",(-2080918),(-4822668),1608,"BR");
("SDKA",416582,(-5983677),184,"GY");
("SDKB",(-2178809),(-4705895),2346,"BR");
("SDKC",(-2230576),(-4946408),1771,"BR");
("SDKE",(-1377832),(-4446956),2198,"BR");
("SDKF",(-914965),(-4009319),1220,"BR");
("SDKG",(-2322279),(-4918097),2031,"BR");
("SDKJ",(-1101914),(-4519213),1598,"BR");
("SDKK",(-2149198),(-4703590),2113,"BR");
("SDKL",383840,(-5978099),108,"GY");
("SDKN",(-2243587),(-4840930),2339,"BR");
("SDKO",(-2025135),(-4879159),1830,"BR")].
(** openap/data/nav/airports.csv:7502-8001 *)
Definition apts15 : list apt := [
("SDKP",(-2218579),(-5028023),1611,"BR");
("SDKQ",(-2021666),(-4907022),1673,"BR");
("SDKR",(-1516906),(-5917378),1116,"BR");
("SDKW",(-1229749),(-5553987),1181,"BR");
("SDKX",(-1151708),(-5240316),1201,"BR");
("SDKZ",455830,(-6047277),784,"VE");
("SDLC",(-2175162),(-5102323),1447,"BR");
("SDLE",(-1358416),(-4179357),3576,"BR");
("SDLG",(-1097386),(-4107399),1890,"BR");
("SDLH",(-1104269),(-3878899),696,"BR");
("SDLI",(-873623),(-3912071),955,"BR");
("SDLJ",(-604357),(-5058056),2257,"BR");
("SDLK",(-1447931),(-4226995),2064,"BR");
("SDLL",(-2222907),(-4738662),2021,"BR");
("SDLM",385497,(-5993000),125,"GY");
("SDLN",(-2260138),(-4203149),26,"BR");
("SDLO",(-1356358),(-3894486),12,"BR");
("SDLP",(-2258232),(-4877906),2039,"BR");
("SDLQ",(-2150034),(-5077984),1339,"BR");
("SDLR",(-2046382),(-5014616),1722,"BR");
("SDLU",(-2248227),(-4853129),1782,"BR");
("SDLV",(-2291803),(-5135413),1581,"BR");
("SDLW",(-1344276),(-5778536),1804,"BR");
("SDLX",(-1144100),(-5221069),1417,"BR");
("SDLY",(-2162034),(-4835477),2083,"BR");
("SDMA",(-2295657),(-4560360),1804,"BR");
("SDMC",(-2292185),(-4283610),13,"BR");
("SDMD",(-1799650),(-5469689),1033,"BR");
("SDME",(-2162884),(-4839828),1942,"BR");
("SDMG",267809,(-6374747),394,"VE");
("SDMH",(-2081029),(-4948905),1913,"BR");
("SDMJ",(-2240880),(-4691247),2274,"BR");
("SDMK",(-2155103),(-5355967),1192,"BR");
("SDMM",455547,(-6078632),1083,"VE");
("SDMO",(-2125795),(-4853170),2461,"BR");
("SDMQ",(-2184947),(-5789888),299,"BR");
("SDMR",(-2306916),(-4388121),16,"BR");
("SDMV",(-2228401),(-4860423),1736,"BR");
("SDMW",(-1411200),(-5068357),833,"BR");
("SDMX",(-1550370),(-5538264),2267,"BR");
("SDMY",(-2163504),(-4848599),2008,"BR");
("SDNA",(-1967405),(-4900054),2336,"BR");
("SDND",(-2248521),(-5153159),1411,"BR");
("SDNE",(-2219778),(-5197625),1585,"BR");
("SDNG",(-1310440),(-5695387),1197,"BR");
("SDNH",(-2149609),(-4923865),1526,"BR");
("SDNI",(-2361740),(-4698558),3090,"BR");
("SDNJ",(-2407792),(-4822745),2604,"BR");
("SDNK",(-1496483),(-5405502),2513,"BR");
("SDNL",(-2175537),(-4858974),1877,"BR");
("SDNO",(-2269382),(-4858084),2395,"BR");
("SDNQ",(-997099),(-6749118),640,"BR");
("SDNT",(-1567895),(-4777377),3563,"BR");
("SDNV",(-950786),(-5401278),1001,"BR");
("SDNW",(-1078724),(-5307705),1148,"BR");
("SDNY",(-2274527),(-4346615),164,"BR");
("SDNZ",(-1784944),(-5476836),1640,"BR");
("SDOA",(-548806),(-4549218),591,"BR");
("SDOB",(-2142350),(-4676008),2585,"BR");
("SDOD",(-584007),(-4554556),820,"BR");
("SDOE",(-572352),(-4579476),741,"BR");
("SDOI",(-2330061),(-4769408),2051,"BR");
("SDOL",(-2075027),(-4891320),1722,"BR");
("SDOQ",(-1267388),(-5174945),1165,"BR");
("SDOR",(-2074400),(-4789246),2415,"BR");
("SDOS",(-2441960),(-4787160),98,"BR");
("SDOU",(-2296106),(-4991761),1532,"BR");
("SDOV",(-1476443),(-5056745),1076,"BR");
("SDOW",(-676032),(-5105460),751,"BR");
("SDOX",(-2178112),(-4788735),2133,"BR");
("SDOZ",(-810520),(-5828556),869,"BR");
("SDPA",(-2293156),(-4408059),20,"BR");
("SDPC",(-2215267),(-5103250),1585,"BR");
("SDPD",(-2294638),(-4543362),1919,"BR");
("SDPF",(-2186991),(-4747547),1867,"BR");
("SDPG",(-2105373),(-5140955),1198,"BR");
("SDPI",468947,(-6024641),617,"VE");
("SDPN",(-2140501),(-5003859),1371,"BR");
("SDPP",(-2329139),(-4882119),1952,"BR");
("SDPQ",390697,(-6002943),125,"GY");
("SDPV",(-2189004),(-5188899),1460,"BR");
("SDPW",(-2270673),(-4762060),1887,"BR");
("SDPX",449961,(-6094431),515,"VE");
("SDPY",(-2203025),(-4742010),2241,"BR");
("SDPZ",(-2123780),(-5335309),1191,"BR");
("SDQE",(-2256676),(-5563881),2041,"BR");
("SDQG",(-2190327),(-5118909),1460,"BR");
("SDQH",(-2465056),(-5036642),2812,"BR");
("SDQK",(-2215948),(-5096634),1968,"BR");
("SDQL",(-2119357),(-5573484),1191,"BR");
("SDQN",(-2089610),(-5571120),919,"BR");
("SDQQ",(-2228211),(-5064278),1919,"BR");
("SDQV",(-1614438),(-5851622),676,"BO");
("SDQW",(-1341540),(-5523388),1575,"BR");
("SDQX",(-2386657),(-4880848),2267,"BR");
("SDQZ",(-1539708),(-5208126),991,"BR");
("SDRA",(-2387031),(-4803950),2271,"BR");
("SDRC",(-2218582),(-5086736),1608,"BR");
("SDRD",(-2164195),(-4747435),2776,"BR");
("SDRF",(-2274962),(-4405271),1750,"BR");
("SDRH",(-2084143),(-5452834),1509,"BR");
("SDRK",(-2243602),(-4756371),2031,"BR");
("SDRM",392754,(-6418643),568,"VE");
("SDRO",(-1646822),(-5471547),1034,"BR");
("SDRP",371097,(-6416402),676,"VE");
("SDRR",(-2308733),(-4899187),2657,"BR");
("SDRS",(-2248150),(-4448581),1320,"BR");
("SDRT",464641,(-6079134),728,"VE");
("SDRU",(-2169143),(-5093889),1285,"BR");
("SDRW",(-1878150),(-4923398),2172,"BR");
("SDRX",(-1796729),(-5703682),499,"BO");
("SDRY",(-2295655),(-5484491),1493,"BR");
("SDRZ",(-2169086),(-5736180),499,"BR");
("SDSA",(-1803856),(-5572127),486,"BR");
("SDSB",(-1999494),(-4752932),1705,"BR");
("SDSC",(-2188413),(-4790349),2647,"BR");
("SDSD",441266,(-6095428),554,"VE");
("SDSE",(-2147062),(-5061705),1414,"BR");
("SDSH",(-2229859),(-4921592),1755,"BR");
("SDSJ",(-2074993),(-4793281),2172,"BR");
("SDSK",(-2292769),(-4251083),26,"BR");
("SDSM",(-2276470),(-4854675),2482,"BR");
("SDSO",(-2200667),(-5181285),1476,"BR");
("SDSP",413893,(-6134143),190,"VE");
("SDSQ",(-2172721),(-4765756),2067,"BR");
("SDST",(-2188328),(-4777974),2385,"BR");
("SDSV",(-2132534),(-4817403),2080,"BR");
("SDSW",(-1306110),(-6256285),456,"BR");
("SDTB",(-2313137),(-4657468),2592,"BR");
("SDTD",(-2278089),(-5507693),1362,"BR");
("SDTE",(-2321513),(-4907857),1928,"BR");
("SDTF",(-2332895),(-4788384),2083,"BR");
("SDTI",(-2139604),(-5160074),1198,"BR");
("SDTK",(-2322512),(-4472363),10,"BR");
("SDTN",(-2112196),(-4795512),1969,"BR");
("SDTO",(-2126015),(-4979499),1447,"BR");
("SDTP",(-2189411),(-5051000),1805,"BR");
("SDTQ",(-1823108),(-5120663),2149,"BR");
("SDTR",(-2088664),(-5741871),499,"PY");
("SDTS",(-2034572),(-5441609),2329,"BR");
("SDTT",(-2124485),(-5049267),1345,"BR");
("SDTW",(-2032916),(-5510349),919,"BR");
("SDTX",(-2054552),(-5135823),1236,"BR");
("SDTY",(-2133826),(-4812251),1713,"BR");
("SDTZ",(-2011518),(-5711299),492,"BR");
("SDUA",(-350755),(-5631832),108,"BR");
("SDUB",(-2344222),(-4508000),13,"BR");
("SDUC",442883,(-6018388),515,"VE");
("SDUD",(-2133507),(-4832004),1991,"BR");
("SDUE",(-2151502),(-5012062),1526,"BR");
("SDUF",(-2108431),(-5749904),492,"PY");
("SDUG",424618,(-6115850),253,"VE");
("SDUH",(-2154391),(-5334767),1001,"BR");
("SDUK",(-1409236),(-5290338),1601,"BR");
("SDUL",(-2119885),(-4792220),2270,"BR");
("SDUN",(-2122324),(-4187985),410,"BR");
("SDUO",(-1218218),(-3837980),568,"BR");
("SDUQ",(-2243174),(-5060988),1525,"BR");
("SDUR",(-2504862),(-5019262),2937,"BR");
("SDUS",(-795351),(-5783963),689,"BR");
("SDUU",(-2190952),(-5087238),1476,"BR");
("SDUZ",(-2295044),(-4976992),1068,"BR");
("SDVA",(-2183007),(-4695740),2329,"BR");
("SDVE",(-2222751),(-4982108),2100,"BR");
("SDVF",459052,(-6018439),653,"VE");
("SDVG",(-2046428),(-5000690),1667,"BR");
("SDVH",(-2300740),(-4663586),2727,"BR");
("SDVI",(-1464329),(-5750508),1391,"BR");
("SDVJ",(-872404),(-5045928),807,"BR");
("SDVL",(-2224079),(-4371485),1903,"BR");
("SDVN",(-2328291),(-5484223),1299,"BR");
("SDVP",433225,(-6049596),197,"VE");
("SDVQ",(-2119862),(-5763883),351,"PY");
("SDVS",(-2106943),(-4803433),1801,"BR");
("SDVU",(-720576),(-5290744),3281,"BR");
("SDWC",(-735834),(-5483279),699,"BR");
("SDWD",(-2043473),(-4860641),1856,"BR");
("SDWE",(-2128778),(-4816580),1919,"BR");
("SDWF",457684,(-6074043),1089,"VE");
("SDWG",(-2206101),(-5192797),1394,"BR");
("SDWH",(-2119541),(-4993576),1444,"BR");
("SDWI",(-816997),(-3563742),1709,"BR");
("SDWJ",(-872782),(-5339348),1099,"BR");
("SDWK",(-2000491),(-4776747),1850,"BR");
("SDWL",(-2319122),(-4707235),2566,"BR");
("SDWM",(-1006740),(-5299815),2953,"BR");
("SDWN",(-2034913),(-4877699),1857,"BR");
("SDWO",386535,(-6258112),240,"VE");
("SDWQ",(-191755),(-5472724),102,"BR");
("SDWR",(-2108015),(-5114742),1627,"BR");
("SDWU",(-2171369),(-5774020),279,"BR");
("SDWV",(-257193),(-5195797),98,"BR");
("SDWX",(-549346),(-5721647),541,"BR");
("SDWZ",(-2118485),(-5056681),1234,"BR");
("SDXA",421000,(-6000580),361,"GY");
("SDXB",(-1679483),(-4764859),3937,"BR");
("SDXE",(-2126842),(-4835907),2037,"BR");
("SDXF",(-1412233),(-4753633),1200,"BR");
("SDXI",(-423586),(-4847900),577,"BR");
("SDXJ",(-1849257),(-5317389),2428,"BR");
("SDXK",441351,(-6011869),486,"VE");
("SDXO",(-2073190),(-5097100),1142,"BR");
("SDXQ",(-2090616),(-5157932),1112,"BR");
("SDXR",(-2222146),(-5715869),463,"BR");
("SDXT",(-1943889),(-5506241),1100,"BR");
("SDXU",(-2134174),(-5125569),1401,"BR");
("SDXW",(-1899723),(-5513778),554,"BR");
("SDYB",(-2378525),(-4834393),2234,"BR");
("SDYF",(-1311246),(-5599238),1408,"BR");
("SDYI",(-1791451),(-4540435),3045,"BR");
("SDYJ",(-2222737),(-5135145),1663,"BR");
("SDYM",(-2260072),(-4741463),2172,"BR");
("SDYN",(-2259010),(-5130258),1365,"BR");
("SDYS",(-2717562),(-4863289),33,"BR");
("SDYT",376554,(-6398848),449,"VE");
("SDYW",(-2394036),(-4888906),2320,"BR");
("SDYX",(-485245),(-4226570),490,"BR");
("SDZA",(-2201019),(-4941386),1804,"BR");
("SDZC",270617,(-6266877),246,"BR");
("SDZE",(-1610759),(-6000692),1076,"BO");
("SDZF",(-1599405),(-4747599),2946,"BR");
("SDZH",(-2289640),(-4549550),1804,"BR");
("SDZI",(-1568421),(-5992204),682,"BR");
("SDZJ",(-1891924),(-4445437),2343,"BR");
("SDZK",299238,(-6371113),682,"VE");
("SDZM",(-2391983),(-4882537),2254,"BR");
("SDZN",480934,(-6022095),735,"VE");
("SDZO",457524,(-6044342),666,"VE");
("SDZQ",(-1553430),(-5963482),768,"BR");
("SDZR",(-2141604),(-4832928),2116,"BR");
("SDZS",(-2057543),(-4908365),1673,"BR");
("SDZT",(-2031229),(-4898099),1581,"BR");
("SDZU",(-2212019),(-5220143),1001,"BR");
("SDZV",(-2247984),(-4946940),1841,"BR");
("SDZW",(-2081239),(-5129905),1181,"BR");
("SDZX",(-1481642),(-5313904),1050,"BR");
("SDZZ",(-2180084),(-4854336),1790,"BR");
("SEAM",(-122060),(-7857628),8502,"EC");
("SECM",(-171041),(-7938060),328,"EC");
("SECO",(-45258),(-7699194),834,"EC");
("SECU",(-289473),(-7899114),8306,"EC");
("SEGS",(-44499),(-9027228),207,"EC");
("SEGU",(-216827),(-7988994),19,"EC");
("SEGZ",(-341494),(-7857063),2640,"EC");
("SEIB",33051,(-7814019),7304,"EC");
("SEII",(-93593),(-9095405),35,"EC");
("SEKK",18842,(-7939199),1247,"EC");
("SELA",(-9901),(-7687670),981,"EC");
("SELJ",(-170833),(-7955452),50,"EC");
("SELT",(-89018),(-7861451),9205,"EC");
("SEMA",(-438296),(-7994200),1508,"EC");
("SEMC",(-231011),(-7812355),3452,"EC");
("SEMH",(-326259),(-7996575),11,"EC");
("SEMO",(-206751),(-7698218),960,"EC");
("SEMT",(-95333),(-8068942),48,"EC");
("SEMX",(-285075),(-7980809),18,"EC");
("SENL",8607,(-7687763),982,"EC");
("SEPC",(-275823),(-7826679),1781,"EC");
("SEPS",(-331822),(-7977419),22,"EC");
("SEPV",(-103533),(-8048028),130,"EC");
("SEQE",(-98321),(-7946529),350,"EC");
("SEQM",(-10557),(-7835515),7841,"EC");
("SERB",(-165749),(-7866210),9151,"EC");
("SERO",(-343508),(-7998227),170,"EC");
("SESA",(-220293),(-8099363),18,"EC");
("SESC",(-246613),(-7817217),3117,"EC");
("SESD",(-24658),(-7921939),1714,"EC");
("SESM",(-150183),(-7806870),3465,"EC");
("SEST",(-90179),(-8961901),62,"EC");
("SESV",(-59937),(-8040743),10,"EC");
("SETA",(-227340),(-7968611),56,"EC");
("SETE",(-98565),(-7782475),1708,"EC");
("SETH",(-237986),(-7750428),1670,"EC");
("SETI",(-78408),(-7552151),997,"PE");
("SETM",(-400003),(-7938018),4056,"EC");
("SETN",98936,(-7962619),32,"EC");
("SETR",(-11901),(-7634382),814,"EC");
("SETU",80308,(-7771713),9649,"EC");
("SFAB",(-5220359),(-6053849),228,"FK");
("SFAL",(-5168577),(-5778056),75,"FK");
("SFBH",(-5141938),(-6042062),141,"FK");
("SFBI",(-5217740),(-5886216),15,"FK");
("SFBS",(-5183986),(-6123710),21,"FK");
("SFCH",(-5152817),(-6026173),130,"FK");
("SFCI",(-5126219),(-6059097),56,"FK");
("SFCS",(-5171869),(-6006596),36,"FK");
("SFDH",(-5175447),(-6042063),41,"FK");
("SFDS",(-5146154),(-5861572),65,"FK");
("SFDW",(-5181929),(-5898717),73,"FK");
("SFFB",(-5193854),(-6006044),100,"FK");
("SFGI",(-5235049),(-5975535),25,"FK");
("SFHC",(-5150398),(-6014620),60,"FK");
("SFLI",(-5199485),(-5846368),56,"FK");
("SFNA",(-5212902),(-5937066),35,"FK");
("SFNI",(-5174831),(-6128022),62,"FK");
("SFPC",(-5150057),(-5900843),77,"FK");
("SFPE",(-5209338),(-6028394),67,"FK");
("SFPH",(-5161569),(-5951796),62,"FK");
("SFPI",(-5130966),(-5961104),101,"FK");
("SFPS",(-5209291),(-6085479),98,"FK");
("SFRC",(-5153890),(-6036058),68,"FK");
("SFSC",(-5157479),(-5904524),41,"FK");
("SFSI",(-5137720),(-6009536),41,"FK");
("SFSL",(-5243099),(-5907905),41,"FK");
("SFSP",(-5182942),(-6045727),68,"FK");
("SFSV",(-5143851),(-5838204),80,"FK");
("SFSW",(-5175531),(-6053879),253,"FK");
("SFTI",(-5156456),(-5843457),86,"FK");
("SFWI",(-5187670),(-6090576),64,"FK");
("SFWK",(-5196270),(-5879108),79,"FK");
("SFWL",(-5223190),(-5974650),36,"FK");
("SFWP",(-5134673),(-6068437),81,"FK");
("SGAS",(-2525463),(-5752273),292,"PY");
("SGAY",(-2737888),(-5685561),223,"PY");
("SGCO",(-2344978),(-5742962),253,"PY");
("SGEN",(-2730531),(-5591951),279,"PY");
("SGES",(-2546712),(-5485464),846,"PY");
("SGIB",(-2541433),(-5462192),762,"PY");
("SGME",(-2206078),(-6062105),553,"PY");
("SGPI",(-2688824),(-5831867),249,"PY");
("SGPJ",(-2264927),(-5583223),1873,"PY");
("SGST",(-2263190),(-5663561),582,"PY");
("SIAB",(-2137112),(-4550035),3050,"BR");
("SIAD",(-2101131),(-5735160),394,"PY");
("SIAF",(-1373866),(-5888725),1903,"BR");
("SIAI",(-1623737),(-5692340),541,"BR");
("SIAJ",(-1698415),(-3916403),43,"BR");
("SIAM",(-2069268),(-4828854),1709,"BR");
("SIAO",(-1963105),(-5525652),1493,"BR");
("SIAP",(-3173782),(-5409228),584,"UY");
("SIAQ",(-1550105),(-5610072),754,"BR");
("SIAR",(-2280238),(-5004893),1617,"BR");
("SIAU",(-1647939),(-5627113),404,"BR");
("SIAW",(-373861),(-4751972),420,"BR");
("SIAX",(-754966),(-5617515),820,"BR");
("SIAY",(-2074039),(-5053569),1277,"BR");
("SIBA",(-2009756),(-5592929),400,"BR");
("SIBC",(-2187960),(-4129754),26,"BR");
("SIBD",(-575770),(-4918103),551,"BR");
("SIBF",(-2471566),(-4811985),249,"BR");
("SIBJ",(-1868259),(-4999185),1401,"BR");
("SIBK",(-1751464),(-4476305),1759,"BR");
("SIBN",(-2306888),(-4943540),2021,"BR");
("SIBO",(-2426019),(-5279468),1919,"BR");
("SIBU",(-636265),(-3776072),892,"BR");
("SIBV",(-2144528),(-5449026),1083,"BR");
("SIBW",(-756075),(-3850024),1214,"BR");
("SIBX",(-2109572),(-5024260),1345,"BR");
("SIBY",(-787610),(-3714417),2031,"BR");
("SIBZ",(-730945),(-3811766),958,"BR");
("SICA",(-670579),(-3850676),1017,"BR");
("SICB",(-648858),(-3614509),2139,"BR");
("SICH",(-2066437),(-5233951),1188,"BR");
("SICJ",(-1346359),(-5877533),1706,"BR");
("SICK",(-1768779),(-4253267),3113,"BR");
("SICM",(-2154275),(-5211213),984,"BR");
("SICN",(-2250651),(-5181478),1348,"BR");
("SICO",(-1332515),(-5604929),1453,"BR");
("SICP",(-2397519),(-5132313),2779,"BR");
("SICW",(-1746669),(-4783265),3094,"BR");
("SICY",(-2811126),(-5319716),2143,"BR");
("SIDB",(-426289),(-4300290),174,"BR");
("SIDD",(-2149989),(-5526362),1476,"BR");
("SIDG",(-2243184),(-5553309),2152,"BR");
("SIDJ",(-894543),(-5051619),807,"BR");
("SIDM",(-1504276),(-5209765),821,"BR");
("SIDN",(-2342289),(-4758601),1985,"BR");
("SIDR",(-1983335),(-5670420),328,"BR");
("SIDS",(-1802174),(-5673454),300,"BO");
("SIDW",(-1523979),(-5449191),1968,"BR");
("SIDY",(-2407862),(-5182161),985,"BR");
("SIDZ",(-2265993),(-5482394),1509,"BR");
("SIEA",(-2146759),(-5079752),1181,"BR");
("SIEB",(-2074914),(-5535936),932,"BR");
("SIEC",(-2204230),(-5229614),955,"BR");
("SIED",(-1545155),(-4340901),1621,"BR");
("SIEF",(-2057414),(-5471971),1722,"BR");
("SIEG",(-2265667),(-5339326),951,"BR");
("SIEJ",(-994244),(-5750109),821,"BR");
("SIEL",(-1658766),(-5773258),709,"BO");
("SIEN",(-1540923),(-5334393),1503,"BR");
("SIEQ",(-1331323),(-5657485),1099,"BR");
("SIET",(-2008524),(-5672555),607,"BR");
("SIEV",(-2076383),(-5670921),1050,"BR");
("SIEW",(-798847),(-6104987),279,"BR");
("SIEX",(-1901383),(-5043232),1450,"BR");
("SIEZ",(-2461976),(-5046061),2953,"BR");
("SIFA",(-1978251),(-5647604),328,"BR");
("SIFC",(-2038576),(-5626982),722,"BR");
("SIFD",(-1638283),(-5728981),591,"BR");
("SIFE",(-2341881),(-5060048),2100,"BR");
("SIFF",(-1926067),(-5701626),233,"BR");
("SIFH",(-1732409),(-5320247),2464,"BR");
("SIFJ",(-2180560),(-5424928),709,"BR");
("SIFM",(-991574),(-6086452),499,"BR");
("SIFN",(-359566),(-5965514),188,"BR");
("SIFQ",(-2904552),(-5114258),2566,"BR");
("SIFR",(-1887295),(-4756380),3310,"BR");
("SIFT",(-1615226),(-6011641),906,"BO");
("SIFU",(-2241747),(-4377741),1319,"BR");
("SIFV",(-1983132),(-4010641),88,"BR");
("SIFW",(-1771749),(-5700458),400,"BO");
("SIFY",(-2177489),(-5749736),607,"BR");
("SIGF",(-1500235),(-5583003),1020,"BR");
("SIGL",(-2191451),(-5352080),1099,"BR");
("SIGM",(-1627334),(-5786556),469,"BO");
("SIGN",(-1557465),(-5323654),1585,"BR");
("SIGO",(-1333062),(-5395973),2126,"BR");
("SIGS",(-1716489),(-4666440),1946,"BR");
("SIGT",(-2399228),(-4918087),2260,"BR");
("SIGU",(-1981940),(-5382967),2199,"BR");
("SIGW",(-2191776),(-5714729),640,"BR");
("SIGX",(-1120103),(-5823987),1083,"BR");
("SIGY",(-750262),(-4420755),1476,"BR");
("SIHB",(-545891),(-4606420),417,"BR");
("SIHG",(-1007167),(-4999944),656,"BR");
("SIHI",(-661916),(-4899582),633,"BR");
("SIHJ",(-1010707),(-4832921),958,"BR");
("SIHL",5138377,(-12711403),0,"CA");
("SIHN",(-2179759),(-5657512),936,"BR");
("SIHV",(-1721548),(-4661357),2002,"BR");
("SIHW",(-2122112),(-4787766),1781,"BR");
("SIIA",(-1170170),(-5822426),653,"BR");
("SIID",(-682090),(-5684526),695,"BR");
("SIIE",(-2089175),(-5340801),1733,"BR");
("SIIG",(-2236178),(-5110096),1756,"BR");
("SIII",(-2042942),(-4822881),1798,"BR");
("SIIJ",(-2125040),(-5657108),1099,"BR");
("SIIK",(-2072905),(-5368725),1811,"BR");
("SIIM",(-1880043),(-5485255),1408,"BR");
("SIIN",(-759610),(-5670647),951,"BR");
("SIIQ",(-1739664),(-5372252),2198,"BR");
("SIIS",(-2364918),(-5383361),1100,"BR");
("SIIT",(-2076360),(-5557455),1188,"BR");
("SIIU",(-1964119),(-4870373),2218,"BR");
("SIIX",(-1373471),(-5259311),1207,"BR");
("SIIZ",(-1416545),(-5716635),2001,"BR");
("SIJA",(-289868),(-4896216),177,"BR");
("SIJE",(-2001007),(-5739142),476,"BR");
("SIJG",(-2143965),(-5072535),1290,"BR");
("SIJJ",(-2280736),(-5553804),1181,"PY");
("SIJK",(-1795582),(-4686584),2457,"BR");
("SIJM",(-1714050),(-5660061),328,"BR");
("SIJN",(-2786618),(-4957793),2881,"BR");
("SIJO",(-1858139),(-5751406),381,"BR");
("SIJR",(-2553894),(-4960244),2592,"BR");
("SIJS",(-345598),(-4753199),561,"BR");
("SIJU",(-1178167),(-5845653),1073,"BR");
("SIJV",(-2158143),(-4987306),1394,"BR");
("SIJY",(-2698561),(-4881864),33,"BR");
("SIJZ",(-739248),(-5676813),801,"BR");
("SIKC",(-1075941),(-5546258),1266,"BR");
("SIKJ",(-966514),(-5597949),919,"BR");
("SIKK",(-2024853),(-4564872),2180,"BR");
("SIKM",(-528610),(-4600433),863,"BR");
("SIKN",(-515793),(-4591919),928,"BR");
("SIKO",(-502119),(-5778271),541,"BR");
("SIKP",(-1831037),(-5750756),404,"BO");
("SIKQ",(-723652),(-5710944),633,"BR");
("SIKX",(-2024197),(-4866319),1476,"BR");
("SIKY",(-1872020),(-5334315),2100,"BR");
("SIKZ",(-566205),(-4353783),390,"BR");
("SILA",(-2275995),(-5384742),1247,"BR");
("SILB",(-1499985),(-5550216),1247,"BR");
("SILC",(-1303929),(-5594634),1690,"BR");
("SILD",(-2063412),(-5677164),512,"BR");
("SILG",(-1376494),(-5874768),1690,"BR");
("SILI",(-2305979),(-4431670),197,"BR");
("SILJ",(-82971),(-5205373),135,"BR");
("SILM",(-1447503),(-4687319),1598,"BR");
("SILN",(-356047),(-4866147),325,"BR");
("SILQ",(-2492770),(-5350045),2132,"BR");
("SILS",(-638867),(-5628731),667,"BR");
("SILT",(-2023074),(-5097202),1460,"BR");
("SILU",(-1987085),(-5698838),427,"BR");
("SILW",(-2173142),(-5651115),912,"BR");
("SILX",(-1050971),(-5365431),1070,"BR");
("SILY",(-2351552),(-5380504),1300,"BR");
("SILZ",(-939550),(-4035735),1197,"BR");
("SIMA",(-1792527),(-5762532),299,"BO");
("SIME",(-557834),(-4742722),443,"BR");
("SIMF",(-1597060),(-4671394),3287,"BR");
("SIMG",(-2110480),(-5771546),312,"PY");
("SIMI",(-2364101),(-5518479),1231,"BR");
("SIMJ",(-1865937),(-4955319),2005,"BR");
("SIMK",(-2059964),(-4738845),3292,"BR");
("SIML",(-328504),(-4920900),220,"BR");
("SIMO",(-1677436),(-5617338),365,"BR");
("SIMQ",(-1820494),(-5575419),600,"BR");
("SIMR",(-1775133),(-5115714),2362,"BR");
("SIMU",(-2228692),(-5284222),978,"BR");
("SIMV",(-1984162),(-4785243),2733,"BR");
("SIMW",(-2034945),(-5397031),1562,"BR");
("SIMX",(-1524392),(-5657882),722,"BR");
("SIMY",(-2321623),(-5409488),972,"BR");
("SIMZ",(-1788087),(-5494142),584,"BR");
("SINA",(-2279274),(-5319942),1122,"BR");
("SINC",(-292727),(-4978456),49,"BR");
("SING",(-2055498),(-4929121),1739,"BR");
("SINH",(-2265366),(-5356545),804,"BR")].
(** openap/data/nav/airports.csv:8002-8501 *)
Definition apts16 : list apt := [
("SINJ",(-1836433),(-5477972),1205,"BR");
("SINK",(-2187333),(-5087576),1582,"BR");
("SINM",(-1310468),(-5652960),938,"BR");
("SINN",(-880868),(-4636334),1657,"BR");
("SINO",(-441360),(-4652094),634,"BR");
("SINP",(-2151133),(-5642942),1083,"BR");
("SINQ",(-79891),(-5249025),250,"BR");
("SINR",(-1801035),(-5402072),1231,"BR");
("SINS",(-2129234),(-5371149),1211,"BR");
("SINT",(-1519609),(-4938316),2251,"BR");
("SINU",(-2192405),(-5671271),936,"BR");
("SINV",(-823256),(-3776100),1634,"BR");
("SINZ",(-2543607),(-5053094),2796,"BR");
("SIOA",(-1767499),(-4459703),1969,"BR");
("SIOB",(-2082465),(-5127501),1362,"BR");
("SIOC",(-2114027),(-5155129),1300,"BR");
("SIOD",(-2200115),(-5342729),952,"BR");
("SIOE",(-2579101),(-5303642),1850,"BR");
("SIOF",(-2143556),(-5437803),1247,"BR");
("SIOI",(-1176154),(-5434842),3773,"BR");
("SIOJ",(-1563580),(-5830874),749,"BO");
("SIOK",(-1464036),(-5624314),1313,"BR");
("SIOL",(-1832439),(-4884742),1706,"BR");
("SIOM",(-1153927),(-5419662),3741,"BR");
("SIOO",(-2202848),(-5790506),273,"BR");
("SIOP",(-2196966),(-5785546),272,"BR");
("SIOQ",(-2349968),(-5431621),1313,"BR");
("SIOR",(-1810004),(-5715531),358,"BO");
("SIOS",(-2277009),(-5396887),1312,"BR");
("SIOT",(-2149501),(-5238618),1092,"BR");
("SIOU",(-1829594),(-5701530),378,"BO");
("SIOV",(-1690081),(-3916403),44,"BR");
("SIOZ",(-959346),(-5035724),591,"BR");
("SIPA",(-2164190),(-4693835),2861,"BR");
("SIPB",(-244214),(-4412715),109,"BR");
("SIPC",(-131505),(-4843131),16,"BR");
("SIPE",(-766409),(-3486013),20,"BR");
("SIPG",(-1414013),(-5147276),794,"BR");
("SIPH",(-959881),(-4977571),722,"BR");
("SIPJ",(-1810571),(-4521924),1969,"BR");
("SIPK",(-1650282),(-5642214),348,"BR");
("SIPL",(-1462101),(-5448211),1824,"BR");
("SIPN",(-2151361),(-5769094),328,"BR");
("SIPO",(-1492266),(-4196155),2260,"BR");
("SIPQ",(-1699980),(-4874202),3002,"BR");
("SIPR",(-1699944),(-5074559),2451,"BR");
("SIPU",(-1945110),(-4736599),3567,"BR");
("SIPW",(-503766),(-4270545),607,"BR");
("SIPY",(-198315),(-5081453),96,"BR");
("SIQA",(-640558),(-3504831),171,"BR");
("SIQB",(-327124),(-5032482),249,"BR");
("SIQC",(-1916068),(-5299898),1592,"BR");
("SIQD",(-2064422),(-5479205),1968,"BR");
("SIQE",(-1593770),(-4772740),3399,"BR");
("SIQG",(-1051051),(-5571157),958,"BR");
("SIQI",(-3054487),(-5047149),20,"BR");
("SIQJ",(-1495779),(-5580593),989,"BR");
("SIQK",(-2278057),(-4733645),1909,"BR");
("SIQM",(-1790380),(-5012302),1693,"BR");
("SIQN",(-1072066),(-5280134),1264,"BR");
("SIQO",(-1833468),(-5548971),499,"BR");
("SIQQ",(-1812930),(-4979766),6825,"BR");
("SIQR",(-1358679),(-4981970),804,"BR");
("SIQS",(-1537332),(-5713058),722,"BR");
("SIQU",(-2009080),(-5130822),1280,"BR");
("SIQV",(-1289912),(-5858192),1687,"BR");
("SIQW",(-1582165),(-5855451),755,"BO");
("SIQX",(-1563389),(-5747206),558,"BR");
("SIQY",(-1262932),(-5594919),1264,"BR");
("SIQZ",(-1565319),(-4644366),1871,"BR");
("SIRA",(-1239302),(-5524378),1575,"BR");
("SIRB",(-2176736),(-5438352),1476,"BR");
("SIRC",(-1032048),(-5358786),1083,"BR");
("SIRD",(-1223442),(-5092202),821,"BR");
("SIRE",(-1365616),(-4654281),2549,"BR");
("SIRF",(-863002),(-3527514),479,"BR");
("SIRG",(-1203528),(-5162255),1214,"BR");
("SIRH",(-1827145),(-5431540),1450,"BR");
("SIRI",(-1390610),(-3894241),23,"BR");
("SIRJ",(-430196),(-5622694),115,"BR");
("SIRN",(-1476297),(-5198749),854,"BR");
("SIRQ",(-1276948),(-6087049),1000,"BR");
("SIRR",(-923209),(-5698880),1280,"BR");
("SIRS",(-1963946),(-4879200),2461,"BR");
("SIRT",(-1372902),(-5702701),1060,"BR");
("SIRU",(-1691772),(-5407697),6234,"BR");
("SIRV",(-1611458),(-5876672),400,"BO");
("SIRW",(-687443),(-4530700),1687,"BR");
("SISB",(-1215771),(-5168637),1108,"BR");
("SISD",(-1814371),(-5127517),1982,"BR");
("SISE",(-1201861),(-5086903),650,"BR");
("SISF",(-2094444),(-5667669),2198,"BR");
("SISG",(-641359),(-5595216),699,"BR");
("SISI",(-1763769),(-5046997),1720,"BR");
("SISJ",(-1745652),(-5556141),427,"BR");
("SISK",(-1886281),(-5204924),2093,"BR");
("SISL",(-1689685),(-5590979),509,"BR");
("SISN",(-1754565),(-5389885),2001,"BR");
("SISO",(-9302),(-4958437),20,"BR");
("SISP",(-2070630),(-4939280),1860,"BR");
("SISS",(-2038155),(-5340352),1542,"BR");
("SISU",(-2086727),(-5315796),1264,"BR");
("SISV",(-1390095),(-5710777),1690,"BR");
("SISW",(-1382817),(-5916330),1690,"BR");
("SISX",(-1937832),(-5605765),361,"BR");
("SISY",(-2545210),(-4914600),3212,"BR");
("SISZ",(-557781),(-5664158),821,"BR");
("SITA",(-722178),(-5616866),958,"BR");
("SITB",(-2301302),(-5379224),951,"BR");
("SITC",(-1129788),(-5683794),1889,"BR");
("SITD",(-510774),(-5748406),155,"BR");
("SITF",410869,(-6073715),365,"VE");
("SITH",(-1767016),(-5038927),1644,"BR");
("SITI",(-1701299),(-4479587),1719,"BR");
("SITJ",(-748961),(-4614724),998,"BR");
("SITL",(-505084),(-4023836),1148,"BR");
("SITN",(-1824666),(-5755644),493,"BO");
("SITO",(-715292),(-5663800),361,"BR");
("SITR",(-2017821),(-5507065),1509,"BR");
("SITT",(-709247),(-4595839),1900,"BR");
("SITU",(-1793757),(-5034506),1526,"BR");
("SITV",(-1340785),(-5567707),1450,"BR");
("SITW",(-682422),(-4541639),1720,"BR");
("SITX",(-1977183),(-5552437),519,"BR");
("SITY",(-1940492),(-5586644),486,"BR");
("SITZ",(-1491445),(-4336405),1713,"BR");
("SIUA",(-2086865),(-5321211),1083,"BR");
("SIUB",(-1350869),(-5515239),1510,"BR");
("SIUC",(-722741),(-5667286),391,"BR");
("SIUF",(-1016158),(-5370264),1231,"BR");
("SIUG",(-2249486),(-5191309),1116,"BR");
("SIUH",(-1114222),(-5588079),1038,"BR");
("SIUJ",(-518852),(-5758415),401,"BR");
("SIUK",(-692601),(-5699342),840,"BR");
("SIUL",(-677661),(-4589700),1926,"BR");
("SIUM",(-855725),(-4685580),1874,"BR");
("SIUO",(-1072335),(-5229477),1034,"BR");
("SIUQ",(-2098089),(-5433876),1660,"BR");
("SIUR",(-1960603),(-5350323),1549,"BR");
("SIUS",(-2271827),(-5404433),1240,"BR");
("SIUV",(-2031847),(-5178836),1365,"BR");
("SIUW",(-2084483),(-5230137),1093,"BR");
("SIUX",(-642454),(-5605271),985,"BR");
("SIUY",(-701593),(-5587792),870,"BR");
("SIUZ",(-766534),(-5596119),788,"BR");
("SIVC",(-1376017),(-4948069),1231,"BR");
("SIVD",(-1694879),(-4627954),1722,"BR");
("SIVE",(-2351019),(-4800001),2447,"BR");
("SIVF",(-1165281),(-5273739),1083,"BR");
("SIVG",(-1187637),(-5544708),1280,"BR");
("SIVJ",(-1945205),(-4390199),2402,"BR");
("SIVK",(-1322564),(-4696084),1657,"BR");
("SIVL",(-694788),(-3667334),1641,"BR");
("SIVN",(-1660468),(-4376912),2149,"BR");
("SIVO",(-1244926),(-5177764),1378,"BR");
("SIVP",(-1445044),(-5053614),899,"BR");
("SIVQ",(-2208188),(-5420644),1083,"BR");
("SIVR",(-762201),(-5674454),909,"BR");
("SIVU",(-2042686),(-4033451),16,"BR");
("SIVV",(-1693236),(-5623427),489,"BR");
("SIVW",(-2471624),(-4802809),89,"BR");
("SIVY",(-829988),(-4576824),1575,"BR");
("SIVZ",(-2918766),(-5654929),220,"BR");
("SIWA",(-1075046),(-5937459),1060,"BR");
("SIWB",(-2319334),(-5529100),1965,"PY");
("SIWC",(-1413658),(-5736986),2054,"BR");
("SIWD",(-901007),(-4614085),5413,"BR");
("SIWE",(-2721509),(-5096272),3223,"BR");
("SIWF",(-1418679),(-5755502),2035,"BR");
("SIWG",(-1456107),(-5582443),735,"BR");
("SIWH",(-941740),(-5042840),2533,"BR");
("SIWI",(-1392893),(-5724425),1700,"BR");
("SIWJ",(-1552768),(-5514234),2533,"BR");
("SIWK",(-1404748),(-5538480),1575,"BR");
("SIWL",(-1412917),(-5693893),1690,"BR");
("SIWM",(-1798762),(-4953975),1969,"BR");
("SIWN",(-1784903),(-4958306),1477,"BR");
("SIWO",(-1268434),(-6109311),1132,"BR");
("SIWP",(-2287074),(-5444321),1201,"BR");
("SIWQ",(-2096945),(-5308048),1234,"BR");
("SIWR",(-1380208),(-5049200),985,"BR");
("SIWT",(-784379),(-5666028),699,"BR");
("SIWU",(-1851662),(-5760031),365,"BR");
("SIWV",(-785963),(-5671918),699,"BR");
("SIWY",(-1750684),(-5577032),483,"BR");
("SIWZ",(-1948828),(-5649052),312,"BR");
("SIXA",(-2053062),(-5109434),1398,"BR");
("SIXB",(-1850859),(-5740436),312,"BR");
("SIXD",(-3083889),(-5557121),913,"BR");
("SIXE",(-3004964),(-5145190),33,"BR");
("SIXF",(-1738621),(-4753790),2717,"BR");
("SIXG",(-1803066),(-4746207),2812,"BR");
("SIXI",(-1517819),(-4009693),827,"BR");
("SIXK",(-2317104),(-5420184),961,"BR");
("SIXL",(-1331124),(-5289679),1152,"BR");
("SIXM",(-497464),(-5692409),492,"BR");
("SIXO",(-1398513),(-5966361),1070,"BR");
("SIXP",(-1407711),(-5745552),2038,"BR");
("SIXQ",(-2385122),(-5543549),1500,"BR");
("SIXS",(-1701236),(-3918344),82,"BR");
("SIXV",(-1813378),(-5336653),2789,"BR");
("SIXW",(-753111),(-3486571),1,"BR");
("SIXX",(-965811),(-5495951),1159,"BR");
("SIXZ",(-2399672),(-4860949),2346,"BR");
("SIYE",(-1909870),(-5557128),411,"BR");
("SIYF",(-2331023),(-4909255),2166,"BR");
("SIYH",(-1897946),(-5529289),508,"BR");
("SIYI",(-664114),(-4867612),505,"BR");
("SIYK",(-1745456),(-4821784),2605,"BR");
("SIYN",(-1190459),(-6123337),748,"BR");
("SIYO",(-1725363),(-5130960),2848,"BR");
("SIYP",(-1028393),(-5647202),1057,"BR");
("SIYQ",(-1279737),(-5650240),1310,"BR");
("SIYR",(-2805260),(-5196438),2199,"BR");
("SIYS",(-2243356),(-4547911),2759,"BR");
("SIYT",(-311737),(-5658969),99,"BR");
("SIYW",(-595041),(-5654468),601,"BR");
("SIYX",(-2194759),(-4655296),4200,"BR");
("SIYY",(-1745336),(-5684197),610,"BO");
("SIZA",(-1195821),(-3800687),558,"BR");
("SIZC",(-2078170),(-4199799),1542,"BR");
("SIZF",(-2399947),(-5395723),873,"BR");
("SIZG",(-2261266),(-4838822),1631,"BR");
("SIZH",(-1999777),(-5151346),1483,"BR");
("SIZI",(-1875445),(-5147847),1854,"BR");
("SIZK",(-1487069),(-5211702),995,"BR");
("SIZM",(-2163792),(-5330743),1201,"BR");
("SIZN",(-1299887),(-6124122),843,"BR");
("SIZO",(-1419706),(-5164371),860,"BR");
("SIZQ",(-2303660),(-4844344),3078,"BR");
("SIZR",(-1289656),(-6113093),853,"BR");
("SIZS",(-1353462),(-5344143),1201,"BR");
("SIZT",(-1935241),(-5679360),299,"BR");
("SIZU",(-1344131),(-5427889),1427,"BR");
("SIZX",(-1128627),(-5754438),991,"BR");
("SJAA",(-1506721),(-5915439),1142,"BR");
("SJAC",(-1147548),(-5169273),886,"BR");
("SJAE",(-1314115),(-5180659),1618,"BR");
("SJAF",(-1367118),(-5789924),1804,"BR");
("SJAG",(-1362333),(-6028961),804,"BR");
("SJAH",(-577635),(-4616671),741,"BR");
("SJAI",(-1318516),(-4875284),1359,"BR");
("SJAK",(-1836762),(-4887633),1624,"BR");
("SJAL",(-464894),(-4723423),1077,"BR");
("SJAQ",(-1612490),(-4636368),2999,"BR");
("SJAR",(-2001851),(-5090396),1198,"BR");
("SJAS",(-2166551),(-4917513),1450,"BR");
("SJAU",(-883620),(-4956372),680,"BR");
("SJAW",(-2172137),(-4845336),2057,"BR");
("SJAX",(-1296828),(-4598144),2657,"BR");
("SJAY",(-1316253),(-4620512),3127,"BR");
("SJAZ",(-1276981),(-4602591),2733,"BR");
("SJBC",(-898916),(-5121546),1082,"BR");
("SJBF",(-1516246),(-4828448),2136,"BR");
("SJBK",(-567638),(-5424810),581,"BR");
("SJBN",(-816570),(-5483416),1100,"BR");
("SJBR",(-1787926),(-5638955),401,"BO");
("SJBS",(-1926932),(-5603363),443,"BR");
("SJBT",(-1957217),(-5610107),417,"BR");
("SJBU",(-1701297),(-4479587),1720,"BR");
("SJBW",(-2383642),(-5190509),1247,"BR");
("SJBX",(-601887),(-3524316),329,"BR");
("SJBY",(-365913),(-4534992),82,"BR");
("SJBZ",(-1895367),(-5110983),1411,"BR");
("SJCA",(-2153855),(-4705014),2133,"BR");
("SJCD",(-1772607),(-5393773),1303,"BR");
("SJCE",(-2184991),(-5402419),1690,"BR");
("SJCF",(-1319139),(-5231098),1250,"BR");
("SJCL",(-1452800),(-5041421),1100,"BR");
("SJCM",(-1611993),(-5295517),4361,"BR");
("SJCN",(-1690828),(-4771184),3544,"BR");
("SJCO",(-2150388),(-5010224),1510,"BR");
("SJCP",(-1707634),(-5084962),2497,"BR");
("SJCQ",(-1193038),(-4005575),1123,"BR");
("SJCW",(-170967),(-5851634),132,"BR");
("SJCY",(-1567768),(-5596282),617,"BR");
("SJCZ",(-1243225),(-5426001),1101,"BR");
("SJDA",(-1919143),(-4812192),3160,"BR");
("SJDD",(-2251529),(-5334659),854,"BR");
("SJDE",(-2252900),(-5297850),1067,"BR");
("SJDG",(-618904),(-5407523),657,"BR");
("SJDH",(-1454771),(-4576956),2891,"BR");
("SJDI",(-2285260),(-5420941),1247,"BR");
("SJDJ",(-2988801),(-5714177),210,"BR");
("SJDL",(-1731084),(-5584733),1313,"BR");
("SJDN",(-1945796),(-5574263),558,"BR");
("SJDS",(-392567),(-3850517),66,"BR");
("SJDT",(-1952026),(-5531380),453,"BR");
("SJDU",(-2972842),(-5696401),329,"AR");
("SJDV",(-1961800),(-5674536),312,"BR");
("SJDW",(-2212185),(-5729171),548,"BR");
("SJDX",(-1941341),(-5555216),375,"BR");
("SJDY",(-1866286),(-5407240),1533,"BR");
("SJEA",(-1285259),(-4822963),985,"BR");
("SJED",(-1867708),(-5722636),348,"BR");
("SJEF",(-1974542),(-5604445),342,"BR");
("SJEG",(-2016497),(-5715927),525,"BR");
("SJEH",(-2210629),(-4822853),2395,"BR");
("SJEJ",(-2215496),(-4929108),1713,"BR");
("SJEK",(-1354999),(-5221477),4594,"BR");
("SJEL",(-695345),(-5647335),837,"BR");
("SJEM",(-1231894),(-5533840),1231,"BR");
("SJEN",(-3314170),(-5297930),10,"BR");
("SJEQ",(-1818441),(-5678480),404,"BO");
("SJER",(-1731655),(-5032430),1841,"BR");
("SJES",(-1811899),(-5664366),407,"BO");
("SJET",(-1756737),(-5678735),404,"BO");
("SJEU",(-1786945),(-5619671),404,"BR");
("SJEV",(-1765186),(-5688703),401,"BO");
("SJEW",(-1301558),(-4623872),3163,"BR");
("SJEX",(-1301502),(-4610844),2966,"BR");
("SJEY",(-1999413),(-5026679),1562,"BR");
("SJFB",(-838426),(-4644604),1815,"BR");
("SJFF",(-2029957),(-5041452),1595,"BR");
("SJFG",(-552188),(-5711010),250,"BR");
("SJFI",(-1563851),(-5599013),644,"BR");
("SJFJ",(-1723553),(-5523125),522,"BR");
("SJFK",(-1259765),(-4952350),752,"BR");
("SJFL",(-1256447),(-4986568),1083,"BR");
("SJFM",(-2383997),(-5423324),1149,"BR");
("SJFN",(-1836773),(-5493007),752,"BR");
("SJFO",(-1803321),(-5020067),1549,"BR");
("SJFP",(-1290686),(-6136980),984,"BR");
("SJFQ",(-2295724),(-4867847),2441,"BR");
("SJFR",(-1252836),(-5823514),1492,"BR");
("SJFT",(-1009418),(-5773090),1018,"BR");
("SJFU",(-669803),(-3563153),1716,"BR");
("SJFV",(-1875454),(-4875728),2762,"BR");
("SJFW",(-1593976),(-4648185),2648,"BR");
("SJFX",(-1280370),(-4610010),2799,"BR");
("SJGA",(-370208),(-5605659),131,"BR");
("SJGB",(-1358810),(-5746691),1690,"BR");
("SJGC",(-1290389),(-4550556),1201,"BR");
("SJGD",(-1280538),(-4572875),2500,"BR");
("SJGE",(-608126),(-5629193),591,"BR");
("SJGF",(-3021111),(-5244216),131,"BR");
("SJGH",(-2871802),(-5599504),300,"BR");
("SJGI",(-1934073),(-5690754),328,"BR");
("SJGJ",(-2060907),(-5755656),282,"PY");
("SJGK",(-943348),(-5102613),404,"BR");
("SJGN",(-1365727),(-5648430),1201,"BR");
("SJGO",(-2381533),(-5425587),1079,"BR");
("SJGP",(-1644321),(-5466898),1047,"BR");
("SJGR",(-1460115),(-5015483),1050,"BR");
("SJGT",(-888843),(-5855092),1559,"BR");
("SJGU",(-568328),(-4812223),312,"BR");
("SJGW",(-1178554),(-5554282),1280,"BR");
("SJGX",(-3112514),(-5157913),30,"BR");
("SJGY",(-1370786),(-4673954),1965,"BR");
("SJGZ",(-2209221),(-5267928),1231,"BR");
("SJHA",(-2298840),(-5502138),1296,"BR");
("SJHD",(-2137808),(-5220346),1375,"BR");
("SJHE",(-1208868),(-5599934),1201,"BR");
("SJHF",(-737523),(-4439950),1257,"BR");
("SJHG",(-1063267),(-5157217),781,"BR");
("SJHH",(-1811636),(-5222066),2287,"BR");
("SJHJ",(-1118648),(-6108938),831,"BR");
("SJHK",(-3093280),(-5508294),394,"BR");
("SJHL",(-609277),(-4936252),384,"BR");
("SJHM",(-1295856),(-5859259),1588,"BR");
("SJHN",(-2781457),(-4923812),3445,"BR");
("SJHO",(-1395666),(-5710689),1699,"BR");
("SJHP",(-2027970),(-5366307),1624,"BR");
("SJHQ",(-1103901),(-5233399),1155,"BR");
("SJHS",(-1931654),(-4835425),2477,"BR");
("SJHT",(-1983547),(-5483111),1194,"BR");
("SJHU",(-1387531),(-6009720),1149,"BR");
("SJHW",(-1729850),(-4396118),2221,"BR");
("SJHX",(-494670),(-4746667),926,"BR");
("SJHZ",(-1324329),(-5403944),1165,"BR");
("SJIC",(-2124361),(-5278988),1050,"BR");
("SJID",(-1991800),(-5263708),1549,"BR");
("SJIE",(-1355687),(-5886312),1739,"BR");
("SJIF",(-2339062),(-5475349),1247,"BR");
("SJII",(-2230118),(-5494173),1395,"BR");
("SJIJ",(-1778073),(-5346664),2766,"BR");
("SJIL",(-1910080),(-5584833),427,"BR");
("SJIO",(-2699556),(-5038322),3609,"BR");
("SJIQ",(-1952711),(-5065782),1384,"BR");
("SJIR",(-1330414),(-4088514),1733,"BR");
("SJIS",(-2034906),(-5346161),1598,"BR");
("SJIT",(-2074910),(-4675188),2520,"BR");
("SJIU",(-1179642),(-3809323),555,"BR");
("SJIV",(-2908812),(-5621722),268,"AR");
("SJIY",(-498291),(-5693077),814,"BR");
("SJIZ",(-1586304),(-5922149),869,"BR");
("SJJA",(-837609),(-5530958),800,"BR");
("SJJB",(-2077283),(-5278141),1348,"BR");
("SJJD",(-2203614),(-5747007),502,"BR");
("SJJF",(-849883),(-6096297),292,"BR");
("SJJG",(-1272000),(-5238291),1050,"BR");
("SJJH",(-324707),(-5172443),233,"BR");
("SJJJ",(-1268431),(-6109312),1132,"BR");
("SJJK",(-1002483),(-5674035),980,"BR");
("SJJL",(-1178375),(-4596642),2418,"BR");
("SJJM",(-1353804),(-5876479),56,"BR");
("SJJN",(-2047040),(-5268838),1320,"BR");
("SJJO",(-1319530),(-4711709),1431,"BR");
("SJJP",(-783219),(-5654063),778,"BR");
("SJJR",(-2172382),(-4421088),3810,"BR");
("SJJT",(-995764),(-4975487),581,"BR");
("SJJU",(-1404527),(-6015377),725,"BR");
("SJJW",(-1950784),(-5561460),443,"BR");
("SJJX",(-289868),(-4896216),179,"BR");
("SJKA",(-1362791),(-5790146),1798,"BR");
("SJKB",(-990481),(-5858145),1506,"BR");
("SJKC",(-928822),(-5803631),787,"BR");
("SJKG",(-351459),(-5409941),499,"BR");
("SJKH",(-742888),(-5634357),722,"BR");
("SJKI",20811,(-5101406),66,"BR");
("SJKJ",(-1744026),(-5381163),2549,"BR");
("SJKL",461597,(-6007192),994,"VE");
("SJKM",480501,(-6002303),1886,"GY");
("SJKN",470566,(-6026877),1988,"VE");
("SJKO",406114,(-6016691),594,"GY");
("SJKP",454459,(-6046398),1194,"VE");
("SJKQ",512592,(-6058716),1989,"VE");
("SJKR",(-608218),(-5639134),706,"BR");
("SJKS",237592,(-6301146),1092,"BR");
("SJKT",417086,(-6054666),577,"VE");
("SJKU",481075,(-6047334),2188,"VE");
("SJKV",446998,(-6078165),1191,"VE");
("SJKW",442572,(-6082655),1191,"VE");
("SJKX",416967,(-5975221),496,"GY");
("SJKZ",444903,(-6044178),994,"VE");
("SJLA",466057,(-6029500),1988,"VE");
("SJLB",(-1550412),(-5777186),949,"BR");
("SJLC",272079,(-6357009),1191,"VE");
("SJLD",(-1571953),(-5771103),594,"BR");
("SJLE",322438,(-6320208),994,"VE");
("SJLF",249548,(-6373220),2284,"VE");
("SJLG",(-1725163),(-5150492),2858,"BR");
("SJLH",217540,(-5978650),495,"BR");
("SJLI",(-421514),(-4697905),958,"BR");
("SJLJ",59747,(-5922481),397,"BR");
("SJLK",344009,(-6035274),298,"GY");
("SJLL",445959,(-6010294),1493,"VE");
("SJLM",415240,(-6143038),298,"VE");
("SJLN",472614,(-6059361),1890,"VE");
("SJLO",508341,(-6038173),2189,"VE");
("SJLP",297731,(-6009504),348,"GY");
("SJLQ",436385,(-6001912),1791,"GY");
("SJLS",212788,(-5982209),495,"BR");
("SJLT",338486,(-6041039),358,"GY");
("SJLU",173947,(-6228948),397,"BR");
("SJLV",436027,(-5997082),1792,"GY");
("SJLW",442097,(-6049234),1493,"VE");
("SJLX",445229,(-5985672),1792,"GY");
("SJLZ",473189,(-6003727),1896,"GY");
("SJMA",(-1793298),(-5493003),525,"BR");
("SJMD",272526,(-6295135),696,"BR");
("SJME",456834,(-6090530),2783,"VE");
("SJMF",416319,(-6022484),994,"GY");
("SJMH",331491,(-6297092),896,"VE");
("SJMI",328700,(-6384555),1988,"VE");
("SJMJ",445355,(-6026949),1489,"VE");
("SJMK",470992,(-6047612),2188,"VE");
("SJML",470425,(-6073493),2287,"VE");
("SJMM",492717,(-6032271),2585,"VE");
("SJMN",380906,(-6009376),495,"GY");
("SJMO",447072,(-6086511),1194,"VE");
("SJMP",428674,(-6025978),1890,"VE");
("SJMQ",416904,(-6014043),847,"GY");
("SJMR",(-2346555),(-5429843),998,"BR");
("SJMT",449003,(-6099371),1195,"VE");
("SJMU",499233,(-6043625),2287,"VE");
("SJMV",494392,(-6048051),2480,"VE");
("SJMW",446930,(-6017956),1690,"VE");
("SJMX",457506,(-6086103),2487,"VE");
("SJMZ",(-1295852),(-4598970),2701,"BR");
("SJNA",(-126814),(-4843254),17,"BR");
("SJNB",450145,(-6080492),1194,"VE");
("SJNC",314461,(-6223252),794,"BR");
("SJND",(-662137),(-5669357),821,"BR");
("SJNE",199261,(-5995792),495,"BR");
("SJNF",463253,(-6017633),1739,"VE");
("SJNG",260335,(-6386927),1988,"VE");
("SJNH",(-1802392),(-5546191),492,"BR");
("SJNI",(-1391450),(-5608599),1575,"BR");
("SJNJ",(-1543432),(-5159584),892,"BR");
("SJNK",(-1208605),(-6164333),1119,"BR");
("SJNL",(-1362694),(-5758255),1791,"BR");
("SJNM",(-1400512),(-5594560),1520,"BR");
("SJNN",(-1022560),(-6434327),535,"BR");
("SJNO",(-1867027),(-5712489),348,"BR");
("SJNP",(-712162),(-5540301),794,"BR");
("SJNQ",(-1749046),(-4015746),656,"BR");
("SJNR",(-130722),(-4826178),88,"BR");
("SJNS",(-923214),(-5702410),1266,"BR");
("SJNU",(-1303486),(-5171784),1099,"BR");
("SJNV",(-1843645),(-5025527),1857,"BR");
("SJNW",(-963593),(-5523347),1103,"BR");
("SJNX",(-1841182),(-5263263),2730,"BR");
("SJNZ",(-1325792),(-5872873),1746,"BR");
("SJOG",(-989034),(-6305070),530,"BR");
("SJOH",(-218952),(-5609405),108,"BR");
("SJOI",(-2202831),(-5798454),289,"BR");
("SJOJ",(-487332),(-4739257),656,"BR");
("SJOK",(-1931912),(-5297744),2041,"BR");
("SJOM",(-1063567),(-5844947),991,"BR")].
(** openap/data/nav/airports.csv:8502-9001 *)
Definition apts17 : list apt := [
("SJON",(-1887413),(-5679147),328,"BR");
("SJOO",(-1413044),(-5982222),864,"BR");
("SJOR",101863,(-5021623),30,"BR");
("SJOT",(-687505),(-4853830),587,"BR");
("SJOU",(-1444913),(-5403495),1628,"BR");
("SJOW",(-2098526),(-5052911),1188,"BR");
("SJOX",(-1282838),(-4625357),3145,"BR");
("SJOY",(-1261026),(-4624715),2999,"BR");
("SJPA",(-1168508),(-6063325),1001,"BR");
("SJPG",(-612623),(-5640131),545,"BR");
("SJPH",(-1619182),(-4808206),3297,"BR");
("SJPI",(-1541638),(-4863414),2510,"BR");
("SJPK",(-1235548),(-4613650),2815,"BR");
("SJPL",(-2197332),(-5415126),1116,"BR");
("SJPO",(-958466),(-3778122),791,"BR");
("SJPP",(-986178),(-5600557),879,"BR");
("SJPQ",(-1631772),(-4722776),3205,"BR");
("SJPR",(-2555183),(-4964354),2907,"BR");
("SJPS",(-1497605),(-5799273),636,"BR");
("SJPU",(-712108),(-5681590),866,"BR");
("SJPV",(-1297139),(-5618510),1378,"BR");
("SJPW",(-1289903),(-5636625),1362,"BR");
("SJPX",(-1541971),(-5437321),2028,"BR");
("SJQA",(-1321408),(-4624361),3121,"BR");
("SJQB",(-832675),(-5110902),601,"BR");
("SJQD",(-1937270),(-5634981),296,"BR");
("SJQE",(-2541303),(-4906932),2999,"BR");
("SJQF",(-1336052),(-5775727),1690,"BR");
("SJQH",(-939194),(-6668047),375,"BR");
("SJQI",(-1736674),(-5677865),361,"BO");
("SJQK",269368,(-6081826),279,"BR");
("SJQL",(-1932054),(-4755726),3117,"BR");
("SJQN",(-1844364),(-5041578),1922,"BR");
("SJQP",(-1280591),(-5062716),801,"BR");
("SJQQ",(-286787),(-5099524),66,"BR");
("SJQR",(-2115102),(-5090482),1312,"BR");
("SJQS",(-1547421),(-5572149),2116,"BR");
("SJQT",(-2016623),(-4392910),4209,"BR");
("SJQV",(-2150993),(-4820150),1978,"BR");
("SJQX",(-352400),(-5338964),797,"BR");
("SJQZ",(-1061120),(-4835131),919,"BR");
("SJRA",(-577815),(-5262229),525,"BR");
("SJRB",(-1011705),(-5250997),1191,"BR");
("SJRC",(-1482265),(-5969112),1575,"BR");
("SJRG",(-3208938),(-5217435),25,"BR");
("SJRH",(-1530318),(-5460224),1788,"BR");
("SJRI",(-840548),(-4544746),1825,"BR");
("SJRJ",(-764225),(-5678965),752,"BR");
("SJRK",(-923596),(-5092965),860,"BR");
("SJRL",(-1445995),(-5605547),1001,"BR");
("SJRO",(-2053045),(-5064028),1312,"BR");
("SJRP",(-2013651),(-5637509),450,"BR");
("SJRR",(-1705777),(-5092838),2461,"BR");
("SJRS",(-2134253),(-5140853),1017,"BR");
("SJRT",(-1437344),(-5400196),1499,"BR");
("SJRV",(-1339326),(-5761486),1394,"BR");
("SJRW",(-1934216),(-5269700),1581,"BR");
("SJSA",(-2278794),(-5460176),1263,"BR");
("SJSC",(-1865882),(-5762547),358,"BR");
("SJSD",(-2107436),(-5513388),1772,"BR");
("SJSE",(-632263),(-5579622),1017,"BR");
("SJSF",(-1984314),(-4969328),1310,"BR");
("SJSH",(-2737292),(-4861367),33,"BR");
("SJSJ",(-1951119),(-5260613),1201,"BR");
("SJSK",(-1752597),(-4238820),3271,"BR");
("SJSL",(-2334511),(-5350197),1162,"BR");
("SJSM",(-1900321),(-5095457),1451,"BR");
("SJSN",(-1483668),(-4936511),1871,"BR");
("SJSO",(-1294883),(-5631975),1358,"BR");
("SJSR",(-1399619),(-4976235),1044,"BR");
("SJSS",(-1250468),(-5569802),1100,"BR");
("SJSU",(-2356526),(-5380098),1083,"BR");
("SJSX",(-1521635),(-5084203),1076,"BR");
("SJTA",(-2217773),(-5049383),1355,"BR");
("SJTB",(-1546887),(-5562771),2451,"BR");
("SJTF",(-1306404),(-6226262),552,"BR");
("SJTG",(-1444524),(-5780193),1831,"BR");
("SJTI",(-2452917),(-5036842),2700,"BR");
("SJTJ",(-2112028),(-5444995),1450,"BR");
("SJTK",(-2229660),(-4812224),2129,"BR");
("SJTL",(-2297843),(-5155350),1821,"BR");
("SJTM",(-2089177),(-5098990),1260,"BR");
("SJTN",(-1337358),(-4690170),1742,"BR");
("SJTO",(-1415014),(-5777997),2083,"BR");
("SJTP",(-1272357),(-5650500),1321,"BR");
("SJTQ",(-2237149),(-4325129),2087,"BR");
("SJTS",(-207175),(-5649327),83,"BR");
("SJTT",(-1323631),(-4971344),926,"BR");
("SJTU",(-1358671),(-5756330),1765,"BR");
("SJTV",(-1147840),(-5792526),984,"BR");
("SJTZ",(-430360),(-4758610),800,"BR");
("SJUA",(-1363078),(-4613959),3101,"BR");
("SJUB",(-1517848),(-6022282),896,"BR");
("SJUC",(-1210945),(-4578291),2395,"BR");
("SJUD",(-2199159),(-5511771),1420,"BR");
("SJUH",(-1923784),(-4750248),3346,"BR");
("SJUJ",(-1344834),(-5926163),2215,"BR");
("SJUK",(-1435676),(-5792105),2435,"BR");
("SJUL",(-2288227),(-4903862),2257,"BR");
("SJUQ",(-1974313),(-5260626),1349,"BR");
("SJUR",(-1348923),(-5410564),1575,"BR");
("SJUS",(-1507979),(-5115990),804,"BR");
("SJUU",(-1403233),(-4687102),1450,"BR");
("SJVB",(-1509195),(-6012632),499,"BR");
("SJVC",(-2046365),(-4953444),1779,"BR");
("SJVD",(-1785250),(-4524470),2550,"BR");
("SJVF",(-1881367),(-5386711),1785,"BR");
("SJVL",(-1937246),(-4713254),3281,"BR");
("SJVM",(-989476),(-5613010),945,"BR");
("SJVN",28653,(-5387056),984,"BR");
("SJVO",(-1589987),(-5224995),1061,"BR");
("SJVP",(-80102),(-6009085),876,"BR");
("SJVQ",(-1889302),(-4928675),2231,"BR");
("SJVR",(-2148773),(-5648917),1181,"BR");
("SJVS",(-1870657),(-4968634),1739,"BR");
("SJVV",(-1346951),(-4846061),2461,"BR");
("SJVW",(-852053),(-4675105),1706,"BR");
("SJVX",(-369902),(-4776604),453,"BR");
("SJVY",(-554314),(-4750421),335,"BR");
("SJVZ",(-1361597),(-5857071),2012,"BR");
("SJWA",(-2134086),(-5543457),1509,"BR");
("SJWB",(-1745964),(-4898626),2428,"BR");
("SJWC",(-1959233),(-5295404),1532,"BR");
("SJWD",(-2150600),(-5472075),984,"BR");
("SJWE",(-1341049),(-5284951),1279,"BR");
("SJWG",(-2978192),(-5569979),384,"BR");
("SJWH",(-1465081),(-5538946),1330,"BR");
("SJWI",(-2149980),(-5375354),1420,"BR");
("SJWL",(-1357977),(-5398232),1804,"BR");
("SJWM",(-1307079),(-5870777),1949,"BR");
("SJWN",(-2355273),(-4925337),2096,"BR");
("SJWO",(-1480587),(-5797766),699,"BR");
("SJWP",(-1262233),(-4593089),2650,"BR");
("SJWQ",(-2121595),(-5030487),1338,"BR");
("SJWT",(-1739838),(-5476474),1788,"BR");
("SJWU",(-1867013),(-4033494),471,"BR");
("SJWV",(-1338309),(-5042358),1030,"BR");
("SJWW",(-2001832),(-5322091),1083,"BR");
("SJWX",(-2257659),(-5250816),981,"BR");
("SJXA",(-3129031),(-5415655),886,"BR");
("SJXB",(-1576011),(-5880299),600,"BO");
("SJXC",(-1618665),(-3936349),410,"BR");
("SJXG",(-1165977),(-5285284),1083,"BR");
("SJXH",(-2721554),(-5327454),1135,"BR");
("SJXI",(-308885),(-3966561),52,"BR");
("SJXJ",(-2144791),(-5438842),1381,"BR");
("SJXM",(-2173509),(-4389763),3452,"BR");
("SJXN",(-1719280),(-5703686),361,"BO");
("SJXS",(-1687229),(-3937085),434,"BR");
("SJXV",(-2293511),(-5505406),1256,"BR");
("SJXW",(-2167670),(-5403877),1155,"BR");
("SJXX",(-2267609),(-5554394),1968,"PY");
("SJYC",(-2289341),(-5466539),1001,"BR");
("SJYD",(-1196816),(-6169198),636,"BR");
("SJYE",462020,(-6028127),994,"VE");
("SJYF",200593,(-6147994),594,"BR");
("SJYG",276435,(-6222401),237,"BR");
("SJYH",(-877741),(-5097068),1020,"BR");
("SJYI",444309,(-6085028),1500,"VE");
("SJYJ",315969,(-6378409),236,"VE");
("SJYK",107441,(-6221978),171,"BR");
("SJYL",274065,(-6202109),499,"BR");
("SJYM",383501,(-6060489),348,"VE");
("SJYO",463537,(-6058736),892,"VE");
("SJYP",432018,(-6019738),892,"VE");
("SJYQ",432990,(-6028904),1194,"VE");
("SJYR",470654,(-6051789),794,"VE");
("SJYS",398969,(-6018412),594,"GY");
("SJYT",472436,(-6077087),1194,"VE");
("SJYU",468367,(-6080688),1194,"VE");
("SJYW",(-1033724),(-5094032),748,"BR");
("SJYY",(-1152716),(-5817762),935,"BR");
("SJYZ",(-1526622),(-5425961),1968,"BR");
("SJZA",(-3067548),(-5152875),107,"BR");
("SJZB",(-1069481),(-5864924),879,"BR");
("SJZC",(-878134),(-3578883),1371,"BR");
("SJZD",(-1786356),(-5670645),361,"BO");
("SJZE",(-2024037),(-5239170),1270,"BR");
("SJZF",(-2061742),(-5202369),1197,"BR");
("SJZG",(-1065919),(-5144131),843,"BR");
("SJZH",(-1088417),(-5500104),981,"BR");
("SJZM",(-1261301),(-4674708),1338,"BR");
("SJZO",(-1846821),(-5676596),394,"BR");
("SJZP",(-983834),(-5546592),1070,"BR");
("SJZQ",(-1056230),(-4495043),1444,"BR");
("SJZR",(-744278),(-4435692),1280,"BR");
("SJZS",(-753806),(-4482609),1280,"BR");
("SJZT",(-1324159),(-4374337),1500,"BR");
("SJZW",(-2328300),(-4874107),2044,"BR");
("SJZX",(-2002330),(-5792098),397,"PY");
("SJZZ",(-1502138),(-5393828),2199,"BR");
("SKAO",(-1138618),(-7223989),157,"PE");
("SKAP",407709,(-7357394),1227,"CO");
("SKAR",444339,(-7576869),3990,"CO");
("SKAS",49797,(-7650192),815,"CO");
("SKBC",904647,(-7398042),111,"CO");
("SKBG",713606,(-7318839),3896,"CO");
("SKBN",1088180,(-7290351),850,"CO");
("SKBO",471339,(-7415206),8361,"CO");
("SKBQ",1087925,(-7478968),98,"CO");
("SKBS",620835,(-7739528),80,"CO");
("SKBU",381924,(-7699517),48,"CO");
("SKCC",794034,(-7251958),1096,"CO");
("SKCD",(-508315),(-7670548),213,"PE");
("SKCG",1043063,(-7551344),4,"CO");
("SKCL",352990,(-7638392),3162,"CO");
("SKCN",631296,(-7021395),341,"CO");
("SKCO",181017,(-7875506),8,"CO");
("SKCR",(-92384),(-7077518),817,"CO");
("SKCU",796339,(-7519967),174,"CO");
("SKCV",939703,(-7569603),31,"CO");
("SKCZ",932636,(-7528791),528,"CO");
("SKEB",760241,(-7480848),180,"CO");
("SKEJ",701735,(-7381099),412,"CO");
("SKFL",159213,(-7557046),803,"CO");
("SKGB",345489,(-7650417),3165,"CO");
("SKGI",426916,(-7479824),900,"CO");
("SKGO",474812,(-7595662),2979,"CO");
("SKGP",256456,(-7790040),164,"CO");
("SKGY",481408,(-7407247),8390,"CO");
("SKIB",442695,(-7513939),2999,"CO");
("SKIO",926552,(-7465709),65,"CO");
("SKIP",85808,(-7767871),9765,"CO");
("SKLA",670985,(-7273234),8530,"CO");
("SKLC",782046,(-7672144),46,"CO");
("SKLG",(-17978),(-7477556),573,"CO");
("SKLM",1123253,(-7249694),276,"CO");
("SKLP",(-131540),(-6958911),587,"CO");
("SKLT",(-420110),(-6994569),277,"CO");
("SKMA",472348,(-7428250),8325,"CO");
("SKMD",620875,(-7559264),4940,"CO");
("SKME",421250,(-7463846),1028,"CO");
("SKMF",(-135589),(-7194489),728,"PE");
("SKMG",928610,(-7485276),178,"CO");
("SKMJ",1138760,(-7224618),160,"CO");
("SKML",797662,(-7543301),160,"CO");
("SKMP",925334,(-7443948),60,"CO");
("SKMR",883016,(-7583169),36,"CO");
("SKMU",124570,(-7023546),680,"CO");
("SKMZ",503013,(-7547133),6871,"CO");
("SKNV",294230,(-7529598),1464,"CO");
("SKOC",830964,(-7335894),3850,"CO");
("SKOE",(-479733),(-7136032),548,"PE");
("SKOL",(-457211),(-7133560),699,"PE");
("SKOT",701438,(-7471698),2060,"CO");
("SKPA",575861,(-7310989),8205,"CO");
("SKPB",1222052,(-7199254),90,"CO");
("SKPC",618069,(-6750023),177,"CO");
("SKPD",386151,(-6790776),460,"CO");
("SKPE",480990,(-7574820),4416,"CO");
("SKPI",185440,(-7609156),4212,"CO");
("SKPN",620851,(-7459489),476,"CO");
("SKPP",245162,(-7661742),5687,"CO");
("SKPQ",549736,(-7465672),566,"CO");
("SKPR",646613,(-7441118),445,"CO");
("SKPS",138620,(-7729433),5951,"CO");
("SKPV",1336206,(-8135944),10,"CO");
("SKPZ",587045,(-7189031),900,"CO");
("SKQU",520443,(-7488404),1531,"CO");
("SKRG",618035,(-7542323),6955,"CO");
("SKRH",1152601,(-7293352),43,"CO");
("SKSA",(-694897),(-7185965),699,"BR");
("SKSJ",257296,(-7263998),605,"CO");
("SKSM",1111195,(-7423046),22,"CO");
("SKSO",566973,(-7297581),8155,"CO");
("SKSP",1257817,(-8172065),19,"CO");
("SKSV",215665,(-7477136),920,"CO");
("SKTB",863074,(-7273715),194,"CO");
("SKTD",(-543678),(-7166638),650,"PE");
("SKTI",423434,(-7465701),1617,"CO");
("SKTJ",553727,(-7334731),8940,"CO");
("SKTM",644643,(-7176811),1050,"CO");
("SKTQ",74211,(-7524166),585,"CO");
("SKTU",(-806260),(-7674939),7,"PE");
("SKUA",551791,(-6868148),285,"VE");
("SKUC",707013,(-7074636),420,"CO");
("SKUI",569415,(-7664652),204,"CO");
("SKUL",408364,(-7623608),3132,"CO");
("SKVG",98454,(-7660700),1248,"CO");
("SKVL",594566,(-7446072),566,"CO");
("SKVP",1042571,(-7325109),456,"CO");
("SKVV",416188,(-7361863),1394,"CO");
("SKYC",(-859997),(-7362153),479,"PE");
("SKYP",531088,(-7239220),1028,"CO");
("SLAG",(-1978710),(-6391919),10679,"BO");
("SLAP",(-1472710),(-6841369),4639,"BO");
("SLAS",(-1571351),(-6309481),807,"BO");
("SLBJ",(-2278010),(-6431312),1250,"AR");
("SLCA",(-1999591),(-6353088),2615,"BO");
("SLCB",(-1740902),(-6619112),8360,"BO");
("SLCC",(-1618676),(-6909393),12592,"PE");
("SLCH",(-1698374),(-6514363),1000,"BO");
("SLCN",(-1758903),(-6944963),13317,"PE");
("SLCO",(-1104934),(-6878463),892,"BO");
("SLCP",(-1613999),(-6202552),1621,"BO");
("SLET",(-1780139),(-6317930),1371,"BO");
("SLGY",(-1081496),(-6534713),427,"BO");
("SLJE",(-1781153),(-6080147),974,"BO");
("SLJO",(-1303129),(-6466918),456,"BO");
("SLJV",(-1632026),(-6260542),1703,"BO");
("SLLJ",(-1653469),(-6830655),12815,"BO");
("SLLP",(-1651274),(-6821098),13313,"BO");
("SLMG",(-1325272),(-6407600),463,"BO");
("SLOR",(-1795148),(-6707576),12146,"BO");
("SLPO",(-1955008),(-6573472),12913,"BO");
("SLPS",(-1898297),(-5782558),439,"BR");
("SLRA",(-1327694),(-6470293),699,"BO");
("SLRB",(-1831382),(-5976750),906,"BO");
("SLRI",(-1101218),(-6610612),459,"BO");
("SLRQ",(-1447988),(-6746010),899,"BO");
("SLRY",(-1431605),(-6739216),935,"BO");
("SLSA",(-1375703),(-6543982),472,"BO");
("SLSB",(-1493360),(-6674240),633,"BO");
("SLSI",(-1637384),(-6097866),1355,"BO");
("SLSM",(-1496056),(-6563888),525,"BO");
("SLSU",(-1901603),(-6529837),9527,"BO");
("SLTI",(-1634308),(-5838686),404,"BO");
("SLTJ",(-2154802),(-6471344),6084,"BO");
("SLTR",(-1481108),(-6492593),509,"BO");
("SLVG",(-1846491),(-6409949),6552,"BO");
("SLVM",(-2124791),(-6340620),1306,"BO");
("SLVR",(-1763147),(-6314430),1225,"BO");
("SLYA",(-2196983),(-6365521),2116,"BO");
("SMCI",(-336696),(-5733859),479,"BR");
("SMJP",545274,(-5520349),59,"SR");
("SMKE",(-309937),(-5648820),850,"BR");
("SMNI",(-595582),(-5704395),10,"BR");
("SMPA",(-335289),(-5545430),558,"BR");
("SMSI",(-203414),(-5612104),745,"BR");
("SMTB",(-378342),(-5615490),1112,"BR");
("SNAA",(-1909648),(-5171957),1542,"BR");
("SNAB",(-758489),(-4054092),2194,"BR");
("SNAC",(-703119),(-5009206),699,"BR");
("SNAD",(-332809),(-4678388),410,"BR");
("SNAE",(-840415),(-3709277),2080,"BR");
("SNAF",(-1994750),(-4803662),2211,"BR");
("SNAG",(-1867393),(-4819443),3107,"BR");
("SNAH",(-1057898),(-3809340),892,"BR");
("SNAI",(-908009),(-4595602),968,"BR");
("SNAJ",(-342276),(-4833852),436,"BR");
("SNAL",(-977597),(-3663340),886,"BR");
("SNAM",(-2090665),(-4489554),3601,"BR");
("SNAN",(-2807054),(-5387960),1572,"BR");
("SNAO",(-2251458),(-4205435),10,"BR");
("SNAP",(-1573314),(-4332995),1732,"BR");
("SNAR",(-1616953),(-4068867),640,"BR");
("SNAS",(-1822730),(-4519388),2579,"BR");
("SNAT",(-456893),(-3780515),128,"BR");
("SNAU",(-1090101),(-3708698),23,"BR");
("SNAV",(-950280),(-4037379),1289,"BR");
("SNAW",(-1987948),(-4768180),2461,"BR");
("SNAX",(-2263669),(-5046386),1850,"BR");
("SNAY",(-628176),(-5175013),853,"BR");
("SNAZ",(-1299085),(-3964411),1394,"BR");
("SNBA",(-2058986),(-4860325),1898,"BR");
("SNBB",(-1195027),(-4573296),2464,"BR");
("SNBC",(-550357),(-4524817),509,"BR");
("SNBD",(-945854),(-4082778),1240,"BR");
("SNBE",(-1447201),(-5367105),1001,"BR");
("SNBF",(-1046731),(-4018664),1703,"BR");
("SNBG",(-1949844),(-4104750),279,"BR");
("SNBI",(-422855),(-4482718),64,"BR");
("SNBJ",(-834581),(-3644637),2133,"BR");
("SNBK",(-1713588),(-4381929),2392,"BR");
("SNBL",(-1587681),(-3887389),33,"BR");
("SNBM",(-2112552),(-4239984),886,"BR");
("SNBN",(-287898),(-5049170),203,"BR");
("SNBO",(-1279470),(-4272953),1886,"BR");
("SNBR",(-1208236),(-4501552),2447,"BR");
("SNBS",(-752125),(-4605808),930,"BR");
("SNBT",(-721596),(-4455476),981,"BR");
("SNBU",(-1425391),(-4182534),1673,"BR");
("SNBV",(-252533),(-4752406),186,"BR");
("SNBW",(-280140),(-4967406),105,"BR");
("SNBX",(-1108487),(-4315176),1345,"BR");
("SNBY",(-2003826),(-4597773),2523,"BR");
("SNBZ",(-1344108),(-4225127),1788,"BR");
("SNCA",(-2089286),(-4534196),3182,"BR");
("SNCB",(-252631),(-5394316),502,"BR");
("SNCC",265282,(-5096844),0,"GF");
("SNCE",(-2110661),(-4580919),2556,"BR");
("SNCF",(-329771),(-5225965),485,"BR");
("SNCG",(-2122620),(-4578303),2838,"BR");
("SNCI",(-123698),(-4719961),174,"BR");
("SNCJ",(-254651),(-5470890),407,"BR");
("SNCL",(-1339292),(-3891104),3,"BR");
("SNCP",(-125306),(-4602027),82,"BR");
("SNCQ",(-1052221),(-3903517),1509,"BR");
("SNCS",(-705305),(-4036388),2001,"BR");
("SNCT",(-1973016),(-4211141),2067,"BR");
("SNCU",(-182115),(-4487032),39,"BR");
("SNCV",(-1953840),(-4949945),1637,"BR");
("SNCW",(-237647),(-4440758),148,"BR");
("SNCX",(-1948388),(-4058468),492,"BR");
("SNCY",(-1022100),(-3628931),138,"BR");
("SNCZ",(-2040669),(-4292016),1877,"BR");
("SNDA",(-1536605),(-5866271),778,"BR");
("SNDB",(-408822),(-5491326),325,"BR");
("SNDC",(-803673),(-4998257),669,"BR");
("SNDD",(-369229),(-4527406),118,"BR");
("SNDF",(-365325),(-4545426),272,"BR");
("SNDG",(-557249),(-4443702),784,"BR");
("SNDH",(-1215856),(-4502774),1682,"BR");
("SNDI",(-710285),(-5685186),623,"BR");
("SNDJ",(-1297628),(-4404364),1759,"BR");
("SNDL",(-2252961),(-5297880),1066,"BR");
("SNDN",(-2146465),(-4273270),919,"BR");
("SNDO",(-1672122),(-4702044),3066,"BR");
("SNDP",(-226028),(-4860104),218,"BR");
("SNDQ",(-1292316),(-4557458),2595,"BR");
("SNDR",(-508752),(-4287300),373,"BR");
("SNDT",(-1823850),(-4365122),4446,"BR");
("SNDU",(-2064139),(-4599853),2854,"BR");
("SNDV",(-2017476),(-4487481),2608,"BR");
("SNDW",(-1555574),(-4101886),3051,"BR");
("SNDX",(-1003733),(-3632886),345,"BR");
("SNDY",(-1945347),(-4558855),2493,"BR");
("SNEA",(-1872679),(-4786550),3166,"BR");
("SNEB",(-302732),(-4732243),508,"BR");
("SNEC",(-1670986),(-3914609),130,"BR");
("SNED",(-1566428),(-3896023),19,"BR");
("SNEE",(-1280966),(-3825061),76,"BR");
("SNEG",(-1465609),(-5789033),1066,"BR");
("SNEH",(-516918),(-5762771),298,"BR");
("SNEJ",(-2286163),(-4604249),5102,"BR");
("SNEK",(-1688055),(-4623843),1201,"BR");
("SNEL",(-266761),(-5490924),538,"BR");
("SNEM",(-809366),(-3489365),10,"BR");
("SNEN",(-581161),(-4414292),689,"BR");
("SNEO",(-2039908),(-4548306),3337,"BR");
("SNES",(-1175056),(-3795579),161,"BR");
("SNET",(-2370907),(-5111539),2621,"BR");
("SNEU",(-1052251),(-3903478),1499,"BR");
("SNEW",(-1966261),(-5095808),1375,"BR");
("SNEY",(-1309748),(-3990575),2666,"BR");
("SNEZ",(-1596243),(-5071644),1220,"BR");
("SNFA",(-1672003),(-4652697),1795,"BR");
("SNFB",(-1478121),(-5904664),2395,"BR");
("SNFC",(-386093),(-4968379),361,"BR");
("SNFD",(-1708537),(-4545123),1739,"BR");
("SNFE",(-2143815),(-4593495),2871,"BR");
("SNFF",(-380865),(-3861930),82,"BR");
("SNFG",(-184168),(-4718754),220,"BR");
("SNFH",(-2255715),(-5538023),1857,"BR");
("SNFI",(-1839456),(-4886243),1676,"BR");
("SNFJ",(-906630),(-5659808),751,"BR");
("SNFK",(-1643471),(-4347230),2484,"BR");
("SNFL",(-605188),(-5630346),590,"BR");
("SNFN",(-2094200),(-4786803),1739,"BR");
("SNFO",(-2039990),(-4548349),3337,"BR");
("SNFP",(-1218199),(-5579364),1273,"BR");
("SNFQ",(-2215294),(-4576369),3001,"BR");
("SNFR",(-876661),(-3895332),1034,"BR");
("SNFS",(-1187079),(-4574132),2536,"BR");
("SNFT",(-1383981),(-3899398),9,"BR");
("SNFU",(-2000577),(-4896194),1808,"BR");
("SNFV",(-1266587),(-3839848),239,"BR");
("SNFW",(-838805),(-4225450),1004,"BR");
("SNFX",(-663769),(-5195865),656,"BR");
("SNFZ",(-1741056),(-4394137),2765,"BR");
("SNGA",(-2065104),(-4049597),28,"BR");
("SNGB",(-983495),(-4537121),1473,"BR");
("SNGC",(-719624),(-5704952),741,"BR");
("SNGD",(-677741),(-4358758),561,"BR");
("SNGG",(-905330),(-4437480),1066,"BR");
("SNGH",(-1870251),(-4284038),2618,"BR");
("SNGI",(-1420494),(-4275322),1815,"BR");
("SNGJ",(-580527),(-4613679),771,"BR");
("SNGK",(-1905360),(-4897129),1984,"BR");
("SNGM",(-210182),(-4462117),10,"BR");
("SNGN",(-882902),(-3647671),2533,"BR");
("SNGO",(-1904298),(-4858502),2689,"BR");
("SNGP",(-1858394),(-4887277),2624,"BR");
("SNGQ",(-425758),(-4876804),446,"BR");
("SNGR",(-778497),(-5113774),656,"BR");
("SNGS",(-958583),(-3576102),285,"BR");
("SNGT",(-1144641),(-4252273),3501,"BR");
("SNGU",(-141428),(-5163770),66,"BR");
("SNGV",(-1272003),(-5238291),1050,"BR");
("SNGW",(-376265),(-4817789),754,"BR");
("SNGX",(-2132546),(-4673824),2786,"BR");
("SNHA",(-1481432),(-3929632),197,"BR");
("SNHC",(-732104),(-4876478),682,"BR");
("SNHD",(-1907663),(-4813544),3159,"BR");
("SNHE",(-1930299),(-4820838),2792,"BR");
("SNHG",(-1234580),(-4962032),794,"BR");
("SNHJ",(-2109426),(-4991860),1404,"BR");
("SNHK",(-2043180),(-4514168),3051,"BR");
("SNHL",(-1719349),(-4567097),1969,"BR");
("SNHO",(-1583321),(-4108025),1968,"BR");
("SNHP",(-1240590),(-4047944),1188,"BR");
("SNHQ",(-1618515),(-3993241),984,"BR");
("SNHR",(-1848351),(-5471557),957,"BR");
("SNHS",(-805988),(-3833654),1542,"BR");
("SNHU",(-457210),(-4747454),699,"BR");
("SNHW",(-432430),(-4623182),1001,"BR");
("SNHX",(-1736682),(-4744434),2591,"BR");
("SNIA",(-112776),(-4760435),177,"BR");
("SNIB",(-1249749),(-4027478),929,"BR");
("SNIC",(-1134036),(-4185338),2562,"BR")].
(** openap/data/nav/airports.csv:9002-9501 *)
Definition apts18 : list apt := [
("SNIE",(-1401389),(-4250069),2854,"BR");
("SNIF",(-571968),(-5643582),443,"BR");
("SNIG",(-634213),(-3929828),699,"BR");
("SNII",(-681441),(-5655245),699,"BR");
("SNIK",(-1784971),(-4285326),3196,"BR");
("SNIL",(-389928),(-4888552),243,"BR");
("SNIN",(-180273),(-5348870),279,"BR");
("SNIO",(-1111288),(-3852244),499,"BR");
("SNIP",(-1524418),(-4028371),915,"BR");
("SNIR",(-574514),(-4360274),712,"BR");
("SNIS",(-520135),(-4359689),459,"BR");
("SNIT",(-1216444),(-4322546),1398,"BR");
("SNIU",(-1417008),(-3968894),492,"BR");
("SNIV",(-1864507),(-4988605),1424,"BR");
("SNIX",(-1355917),(-5910084),1617,"BR");
("SNIY",(-849660),(-3767032),1329,"BR");
("SNIZ",(-1288186),(-6012541),1772,"BR");
("SNJA",(-563764),(-3596159),489,"BR");
("SNJB",(-1116072),(-4055803),1640,"BR");
("SNJC",(-596276),(-4739658),495,"BR");
("SNJD",(-1219864),(-3891350),768,"BR");
("SNJE",(-1479747),(-4600740),3028,"BR");
("SNJF",(-1264500),(-4352582),1453,"BR");
("SNJG",(-1458179),(-5070650),1079,"BR");
("SNJH",(-1145396),(-4004737),1391,"BR");
("SNJI",(-1719219),(-4464921),2077,"BR");
("SNJJ",(-2071832),(-5538268),837,"BR");
("SNJK",(-1387485),(-4007679),646,"BR");
("SNJL",(-2184607),(-4318987),2300,"BR");
("SNJM",(-2026496),(-4218364),2723,"BR");
("SNJN",(-1547678),(-4439019),1575,"BR");
("SNJO",(-708941),(-3484540),16,"BR");
("SNJP",(-1779200),(-4612394),2990,"BR");
("SNJQ",(-1644220),(-4104251),853,"BR");
("SNJR",(-2108922),(-4423089),3117,"BR");
("SNJS",(-653716),(-3673500),837,"BR");
("SNJT",(-1565265),(-4340647),1811,"BR");
("SNJV",(-1600181),(-4374627),2077,"BR");
("SNJW",(-2004519),(-4742191),1909,"BR");
("SNJZ",(-707105),(-5293653),804,"BR");
("SNKB",(-717910),(-3599382),1926,"BR");
("SNKC",(-1412044),(-4445348),2018,"BR");
("SNKD",(-1901706),(-4343694),2196,"BR");
("SNKE",(-931337),(-5033019),597,"BR");
("SNKF",(-2074293),(-4379865),3478,"BR");
("SNKH",(-811333),(-5712032),981,"BR");
("SNKI",(-2083858),(-4118918),335,"BR");
("SNKJ",(-833944),(-5145527),814,"BR");
("SNKK",(-643725),(-3708236),600,"BR");
("SNKL",(-596675),(-4423841),394,"BR");
("SNKN",(-628079),(-3654706),1145,"BR");
("SNKO",(-1199777),(-4263961),2667,"BR");
("SNKP",(-1768750),(-4253810),3117,"BR");
("SNKQ",(-239554),(-4784499),200,"BR");
("SNKR",(-1045175),(-4514096),1552,"BR");
("SNKS",(-1095221),(-4447032),1476,"BR");
("SNKT",(-684984),(-5658975),1092,"BR");
("SNKU",(-990015),(-3913678),1247,"BR");
("SNKV",104133,(-5051845),49,"BR");
("SNKW",(-2192337),(-5063729),1398,"BR");
("SNKX",(-196891),(-4863037),114,"BR");
("SNKY",(-366584),(-4883826),298,"BR");
("SNKZ",(-2320289),(-5385860),912,"BR");
("SNLA",(-656745),(-4973129),900,"BR");
("SNLB",(-1365400),(-4183688),1506,"BR");
("SNLC",(-796818),(-5002064),1969,"BR");
("SNLD",(-569874),(-5649561),472,"BR");
("SNLF",(-1981218),(-4874185),1959,"BR");
("SNLG",(-1940326),(-4374999),2621,"BR");
("SNLH",(-2013676),(-4161145),2051,"BR");
("SNLI",(-1915094),(-4549769),2178,"BR");
("SNLJ",(-951773),(-6125443),3428,"BR");
("SNLK",(-971145),(-6104773),3297,"BR");
("SNLM",(-1561389),(-5890307),1001,"BR");
("SNLN",(-1936015),(-4007319),131,"BR");
("SNLO",(-2209584),(-4504796),2871,"BR");
("SNLQ",(-1406562),(-5042313),1001,"BR");
("SNLT",(-813652),(-4195414),1178,"BR");
("SNLU",(-1084441),(-3720338),167,"BR");
("SNLW",(-1687395),(-5096616),2697,"BR");
("SNLX",(-480128),(-4839733),1050,"BR");
("SNLY",(-2006537),(-4555700),2159,"BR");
("SNLZ",(-943116),(-4959562),669,"BR");
("SNMA",(-199626),(-5408043),325,"BR");
("SNMB",(-574000),(-3962308),745,"BR");
("SNMC",(-1302409),(-4267827),2133,"BR");
("SNMD",(-681838),(-5684702),471,"BR");
("SNME",(-1248930),(-3802720),233,"BR");
("SNMF",(-2135381),(-4625235),2841,"BR");
("SNMH",(-1584423),(-4898491),2575,"BR");
("SNMI",(-982777),(-3988729),1473,"BR");
("SNMJ",(-1343741),(-4043769),3281,"BR");
("SNMK",(-1509327),(-4398613),1519,"BR");
("SNML",(-954466),(-3583400),387,"BR");
("SNMM",(-1859833),(-4535380),1985,"BR");
("SNMN",(-1723163),(-4258686),2461,"BR");
("SNMO",(-508428),(-3838782),509,"BR");
("SNMP",(-1732014),(-4654170),1752,"BR");
("SNMR",(-1411679),(-3898758),66,"BR");
("SNMS",(-2117351),(-4696461),2933,"BR");
("SNMU",(-1805458),(-3986698),276,"BR");
("SNMV",(-1835451),(-5375021),1250,"BR");
("SNMW",(-1439308),(-4437125),1798,"BR");
("SNMX",(-1872465),(-3983911),98,"BR");
("SNMZ",(-174421),(-5224806),53,"BR");
("SNNB",(-1717707),(-4630244),1772,"BR");
("SNNC",(-282319),(-4789649),236,"BR");
("SNND",(-1893225),(-4947579),1815,"BR");
("SNNE",(-2154182),(-4302408),1322,"BR");
("SNNF",(-503766),(-4270545),607,"BR");
("SNNG",(-1752599),(-4238821),3271,"BR");
("SNNH",(-1429618),(-4380282),1483,"BR");
("SNNI",(-1256738),(-3802344),49,"BR");
("SNNJ",(-1422294),(-4684036),1529,"BR");
("SNNK",(-1476769),(-4342082),1512,"BR");
("SNNM",(-2556314),(-5149987),3602,"BR");
("SNNO",(-1406015),(-5986731),1001,"BR");
("SNNP",(-806153),(-5216863),981,"BR");
("SNNQ",(-2304333),(-5474706),1640,"BR");
("SNNS",(-1494633),(-4368630),1644,"BR");
("SNNT",(-1919644),(-4773553),3261,"BR");
("SNNU",(-1782395),(-4033565),591,"BR");
("SNNV",(-1656804),(-5417357),1099,"BR");
("SNNX",(-1282945),(-6135089),866,"BR");
("SNNY",(-1328143),(-6033470),1001,"BR");
("SNNZ",(-2212763),(-5710360),745,"BR");
("SNOA",(-414091),(-4411984),154,"BR");
("SNOB",(-367954),(-4034190),210,"BR");
("SNOC",(-1153140),(-4118306),3609,"BR");
("SNOD",(-1142209),(-3732516),20,"BR");
("SNOE",(-701898),(-4217238),817,"BR");
("SNOF",(-2230094),(-4639643),2815,"BR");
("SNOG",(-565798),(-3542033),171,"BR");
("SNOI",(-1042247),(-5816248),951,"BR");
("SNOJ",(-1042502),(-5638934),984,"BR");
("SNOK",(-232798),(-4765532),126,"BR");
("SNOL",(-997758),(-5620921),1001,"BR");
("SNOM",(-1500086),(-6022176),1001,"BR");
("SNOO",(-502692),(-3752104),262,"BR");
("SNOP",(-1026655),(-3683906),164,"BR");
("SNOQ",(-2359521),(-5514510),1263,"BR");
("SNOS",(-2072827),(-4666795),2697,"BR");
("SNOT",(-1401300),(-5989207),951,"BR");
("SNOU",(-814582),(-7034936),394,"BR");
("SNOV",(-1012050),(-3629408),279,"BR");
("SNOW",(-2198208),(-5097756),1378,"BR");
("SNOX",(-170733),(-5583881),262,"BR");
("SNOY",(-787249),(-4009606),1529,"BR");
("SNOZ",(-252357),(-4412502),154,"BR");
("SNPA",(-1984172),(-4460653),2598,"BR");
("SNPB",(-666676),(-4408944),197,"BR");
("SNPC",(-705933),(-4152896),1050,"BR");
("SNPD",(-1867553),(-4649874),2793,"BR");
("SNPE",(-1026292),(-3655762),197,"BR");
("SNPF",(-559624),(-4331949),689,"BR");
("SNPG",(-86916),(-5140410),197,"BR");
("SNPH",(-1539001),(-4415083),1576,"BR");
("SNPI",(-1299490),(-4177738),4118,"BR");
("SNPJ",(-1891402),(-4698547),3229,"BR");
("SNPL",(-2125158),(-5173046),1181,"BR");
("SNPM",(-1245654),(-4159508),2395,"BR");
("SNPN",(-2103015),(-5093113),1378,"BR");
("SNPO",(-1919966),(-4502750),2313,"BR");
("SNPP",(-1343421),(-3892508),66,"BR");
("SNPQ",(-837510),(-3664223),2067,"BR");
("SNPS",(-1526003),(-4676769),3277,"BR");
("SNPT",(-2065316),(-4450001),3143,"BR");
("SNPU",(-2156257),(-4575603),2838,"BR");
("SNPV",(-3068995),(-5055812),52,"BR");
("SNPW",(-882625),(-5000453),591,"BR");
("SNPX",(-1731839),(-4486710),1808,"BR");
("SNPY",(-2095456),(-4698692),3110,"BR");
("SNPZ",(-1606788),(-4117152),2625,"BR");
("SNQA",(-264410),(-4786158),138,"BR");
("SNQB",(-316906),(-4807538),256,"BR");
("SNQD",(-678244),(-3823803),745,"BR");
("SNQE",(-607225),(-4983941),682,"BR");
("SNQG",(-683994),(-4308227),689,"BR");
("SNQI",(-1411353),(-5734328),2756,"BR");
("SNQJ",(-1752320),(-5540431),499,"BR");
("SNQL",(-1573198),(-5734782),482,"BR");
("SNQM",(-1099216),(-3962114),1050,"BR");
("SNQN",(-1315622),(-5256941),1102,"BR");
("SNQO",(-2037664),(-5654428),558,"BR");
("SNQP",(-2057155),(-5023034),1437,"BR");
("SNQR",(-1673130),(-5723426),3,"BR");
("SNQS",(-2230568),(-5403474),1001,"BR");
("SNQT",(-2379355),(-5348315),1542,"BR");
("SNQU",(-1303524),(-4144912),3510,"BR");
("SNQV",(-1875128),(-4446239),2205,"BR");
("SNQW",(-756336),(-5774656),453,"BR");
("SNQX",(-497745),(-3899281),653,"BR");
("SNQZ",(-2284665),(-5557021),1837,"PY");
("SNRA",(-1731799),(-4486715),1808,"BR");
("SNRB",(-431871),(-5611010),102,"BR");
("SNRD",(-1729692),(-3927686),66,"BR");
("SNRE",(-1268393),(-4387726),1575,"BR");
("SNRH",(-2103733),(-4587780),2625,"BR");
("SNRJ",(-367121),(-4283758),325,"BR");
("SNRM",(-957953),(-4212192),1381,"BR");
("SNRN",(-678956),(-3510567),420,"BR");
("SNRP",(-1920878),(-4624362),3757,"BR");
("SNRQ",(-610390),(-5738351),331,"BR");
("SNRR",(-415623),(-5016445),604,"BR");
("SNRS",(-495002),(-3801225),115,"BR");
("SNRT",(-1932813),(-4894586),2162,"BR");
("SNRU",(-828033),(-3602135),1891,"BR");
("SNRV",(-688555),(-4946621),450,"BR");
("SNRW",(-990829),(-4863785),1033,"BR");
("SNRX",(-734934),(-4663925),1309,"BR");
("SNRZ",(-2071975),(-4486605),3222,"BR");
("SNSA",(-1760871),(-4670851),2454,"BR");
("SNSB",(-270724),(-4484700),230,"BR");
("SNSC",(-1989836),(-4742304),3287,"BR");
("SNSD",(-1292149),(-4571958),2664,"BR");
("SNSE",(-973770),(-4184448),1306,"BR");
("SNSF",(-2136443),(-5711494),1050,"BR");
("SNSG",(-804216),(-3913638),1539,"BR");
("SNSH",(-258345),(-5473866),440,"BR");
("SNSI",(-1820210),(-4246720),1575,"BR");
("SNSJ",(-1353231),(-5857594),1723,"BR");
("SNSK",(-2226961),(-4564229),2851,"BR");
("SNSL",33768,(-5381687),1680,"BR");
("SNSM",(-69716),(-4733898),88,"BR");
("SNSN",(-903206),(-4268706),1247,"BR");
("SNSO",(-1861262),(-4342376),2428,"BR");
("SNSR",(-1755588),(-4698031),2165,"BR");
("SNSS",(-1620197),(-4232421),2504,"BR");
("SNST",(-1209254),(-4164325),2753,"BR");
("SNSU",(-688113),(-4916712),495,"BR");
("SNSV",(-2366654),(-5407699),591,"BR");
("SNSW",(-70286),(-4852386),43,"BR");
("SNSX",(-2035973),(-5125426),1148,"BR");
("SNSY",(-2094767),(-5649879),1247,"BR");
("SNSZ",(-2135136),(-5562172),1401,"BR");
("SNTA",(-2186944),(-5012165),1444,"BR");
("SNTB",(-772542),(-3762330),1844,"BR");
("SNTC",(-515723),(-4272218),66,"BR");
("SNTD",(-1658762),(-4650712),1862,"BR");
("SNTF",(-1752444),(-3967536),344,"BR");
("SNTG",(-861516),(-4099927),1703,"BR");
("SNTI",(-186810),(-5552116),328,"BR");
("SNTJ",(-428881),(-5608829),98,"BR");
("SNTK",(-1871512),(-4748807),2904,"BR");
("SNTL",(-485856),(-4038014),1116,"BR");
("SNTM",(-1723829),(-4273291),2894,"BR");
("SNTO",(-1789211),(-4151922),1572,"BR");
("SNTP",(-252327),(-4875745),66,"BR");
("SNTQ",(-1072444),(-4366204),1690,"BR");
("SNTR",(-1173914),(-4057488),1896,"BR");
("SNTS",(-703742),(-3725869),820,"BR");
("SNTT",(-1876071),(-4511416),2009,"BR");
("SNTU",(-176790),(-4545308),33,"BR");
("SNTV",(-1565225),(-4166079),2559,"BR");
("SNTW",(-989657),(-3626421),443,"BR");
("SNTX",(-130003),(-4490733),26,"BR");
("SNTY",(-1337983),(-4462244),2159,"BR");
("SNUA",(-2538698),(-5441129),820,"BR");
("SNUB",(-2111747),(-4288553),1115,"BR");
("SNUC",(-559498),(-3696734),394,"BR");
("SNUD",(-341704),(-4340624),197,"BR");
("SNUF",(-1952894),(-4785246),3264,"BR");
("SNUG",(-1495516),(-5962648),787,"BR");
("SNUH",(-2044218),(-4599622),2441,"BR");
("SNUI",(-1685575),(-4204971),1181,"BR");
("SNUJ",(-878215),(-3987700),1253,"BR");
("SNUK",(-1703884),(-4548920),1690,"BR");
("SNUL",(-2145676),(-5335514),1214,"BR");
("SNUM",(-748631),(-3729583),2133,"BR");
("SNUN",(-1635163),(-4693113),1998,"BR");
("SNUP",(-980170),(-3622599),404,"BR");
("SNUS",(-1994375),(-4777882),2100,"BR");
("SNUT",(-1211053),(-4107866),1988,"BR");
("SNUU",(-983169),(-3949879),1335,"BR");
("SNUV",(-2221750),(-5274461),951,"BR");
("SNUW",(-805399),(-3729265),1968,"BR");
("SNUX",(-2140448),(-5331177),1142,"BR");
("SNUY",(-1563455),(-4643091),1870,"BR");
("SNUZ",(-1008990),(-3619000),210,"BR");
("SNVA",(-799295),(-5063074),1037,"BR");
("SNVB",(-1330438),(-3899444),21,"BR");
("SNVC",(-2074118),(-4284420),2162,"BR");
("SNVD",(-1340131),(-4422239),1847,"BR");
("SNVG",(-2003473),(-4823957),1831,"BR");
("SNVH",(-1616465),(-5813938),492,"BO");
("SNVI",(-2179676),(-4527035),3232,"BR");
("SNVJ",(-1525037),(-5879624),1444,"BR");
("SNVK",(-2050553),(-5237149),1214,"BR");
("SNVL",(-1677846),(-4239004),2474,"BR");
("SNVM",(-2066677),(-5277167),1112,"BR");
("SNVN",(-2130517),(-5075558),1352,"BR");
("SNVO",(-1997441),(-5097127),1240,"BR");
("SNVP",(-698234),(-4919942),541,"BR");
("SNVQ",(-651917),(-4826812),600,"BR");
("SNVR",(-1302828),(-3867068),12,"BR");
("SNVS",(-164124),(-5044907),98,"BR");
("SNVU",(-2043209),(-4686331),2395,"BR");
("SNVV",(-1141135),(-3944792),1322,"BR");
("SNVW",(-1399390),(-6007511),574,"BR");
("SNVY",(-2397306),(-5536800),1299,"BR");
("SNVZ",(-1764958),(-4470957),1716,"BR");
("SNWA",(-997999),(-3623564),322,"BR");
("SNWB",(-2093625),(-5095775),1099,"BR");
("SNWC",(-289461),(-4086070),16,"BR");
("SNWD",(-2342733),(-5461135),1335,"BR");
("SNWE",(-2028118),(-5723364),507,"BR");
("SNWF",(-2244138),(-5523494),1476,"BR");
("SNWG",(-2359056),(-5405803),1476,"BR");
("SNWH",(-2296317),(-5354592),1050,"BR");
("SNWI",(-1406506),(-6001011),594,"BR");
("SNWJ",(-1520432),(-5862643),1345,"BR");
("SNWK",(-1667193),(-5426912),722,"BR");
("SNWL",(-1883099),(-5179493),1788,"BR");
("SNWM",(-2038725),(-5119646),1181,"BR");
("SNWN",(-1666924),(-5438964),942,"BR");
("SNWO",(-2301897),(-5462867),1001,"BR");
("SNWP",(-931459),(-3605950),262,"BR");
("SNWQ",(-515819),(-4270432),66,"BR");
("SNWR",(-263226),(-5182932),201,"BR");
("SNWS",(-521356),(-4071057),1034,"BR");
("SNWU",(-2301233),(-5551145),1575,"PY");
("SNWZ",(-948405),(-3596194),302,"BR");
("SNXA",(-2167338),(-4584374),2966,"BR");
("SNXB",(-2191961),(-4497487),2838,"BR");
("SNXD",(-627619),(-5578803),764,"BR");
("SNXE",98948,(-5112315),240,"BR");
("SNXF",(-1789053),(-5699949),394,"BO");
("SNXG",(-677116),(-4936698),745,"BR");
("SNXH",(-451590),(-4402789),190,"BR");
("SNXI",(-2063074),(-5108735),1289,"BR");
("SNXK",(-654234),(-5276929),558,"BR");
("SNXL",(-1262332),(-5215519),1201,"BR");
("SNXM",(-642242),(-5361537),886,"BR");
("SNXN",(-737310),(-4599370),1021,"BR");
("SNXO",(-789559),(-5638936),600,"BR");
("SNXQ",(-1083174),(-4268933),1384,"BR");
("SNXR",(-739690),(-5652263),771,"BR");
("SNXS",(-486576),(-4335544),344,"BR");
("SNXV",(-908364),(-6118933),348,"BR");
("SNXW",(-20290),(-4997167),20,"BR");
("SNXX",(-537675),(-3553497),302,"BR");
("SNXY",(-270493),(-5053136),98,"BR");
("SNYA",(-149614),(-5258108),584,"BR");
("SNYB",(-1900505),(-4948802),1985,"BR");
("SNYC",(-701114),(-5690631),552,"BR");
("SNYD",(-1006885),(-4245520),1312,"BR");
("SNYE",(-248045),(-4511248),125,"BR");
("SNYF",(-850985),(-4613046),1854,"BR");
("SNYH",(-1807229),(-4166773),899,"BR");
("SNYI",(-1662064),(-4730231),3113,"BR");
("SNYJ",(-613586),(-5740567),810,"BR");
("SNYL",(-1842992),(-4605531),3300,"BR");
("SNYM",(-1636982),(-4512570),1594,"BR");
("SNYN",(-1954757),(-4883899),2300,"BR");
("SNYO",(-1891428),(-4698532),3229,"BR");
("SNYP",(-131703),(-4830314),69,"BR");
("SNYQ",(-532000),(-5666710),459,"BR");
("SNYR",(-594608),(-5655867),518,"BR");
("SNYS",(-1822684),(-4599095),3199,"BR");
("SNYT",(-1383601),(-4130350),1804,"BR");
("SNYU",(-1971022),(-5021995),1558,"BR");
("SNYV",(-212122),(-4864996),102,"BR");
("SNYW",(-211259),(-4465287),245,"BR");
("SNYX",(-409319),(-3824861),249,"BR");
("SNYZ",(-484070),(-3814654),115,"BR");
("SNZA",(-2229489),(-4591857),2904,"BR");
("SNZB",(-2128118),(-5651259),1070,"BR");
("SNZC",(-2332907),(-5450502),1220,"BR");
("SNZD",(-1320190),(-4860485),1424,"BR");
("SNZE",(-317081),(-5219461),369,"BR");
("SNZF",(-27318),(-4857812),66,"BR");
("SNZG",(-2386366),(-4824489),2034,"BR");
("SNZH",(-901420),(-4614950),2835,"BR");
("SNZK",(-1502330),(-4404623),1518,"BR");
("SNZL",(-2157462),(-4930359),1401,"BR");
("SNZO",(-529523),(-3553985),131,"BR");
("SNZP",(-1452171),(-4035009),2772,"BR");
("SNZQ",(-723131),(-5623292),1968,"BR");
("SNZR",(-1724300),(-4689024),2359,"BR");
("SNZT",(-350991),(-4833535),499,"BR");
("SNZU",(-285557),(-4823670),243,"BR");
("SNZV",(-372775),(-4747868),361,"BR");
("SNZW",(-1373378),(-3914527),13,"BR");
("SNZY",(-2199728),(-5059888),1450,"BR");
("SNZZ",(-996670),(-3620238),331,"BR");
("SOCA",481378,(-5237354),26,"GF");
("SOOG",389244,(-5180575),46,"GF");
("SOOM",(-548578),(-5403628),13,"BR");
("SOOS",(-362186),(-5320149),653,"BR");
("SPAB",(-525180),(-7944298),6312,"PE");
("SPAC",(-461326),(-7794320),548,"PE");
("SPAM",(-1662908),(-7268526),210,"PE");
("SPAP",(-690475),(-7638407),948,"PE");
("SPAR",(-1168420),(-6933854),797,"PE");
("SPAS",(-279163),(-7647471),728,"PE");
("SPAY",(-1073385),(-7377136),751,"PE");
("SPBB",(-601136),(-7698602),2749,"PE");
("SPBC",(-391321),(-7051544),328,"PE");
("SPBL",(-708498),(-7657262),981,"PE");
("SPBR",(-1140798),(-6949372),750,"PE");
("SPCL",(-838984),(-7457865),513,"PE");
("SPCP",(-683791),(-7633503),978,"PE");
("SPDO",(-1703803),(-7198710),10,"PE");
("SPDR",(-380396),(-7504738),427,"PE");
("SPEE",(-245116),(-7267515),421,"PE");
("SPEN",(-1018287),(-7515548),899,"PE");
("SPEO",(-915769),(-7852490),69,"PE");
("SPEP",(-977071),(-7071426),725,"BR");
("SPEQ",(-1718226),(-7093852),4480,"PE");
("SPGB",(-402518),(-7775990),597,"PE");
("SPGM",(-928028),(-7600472),2008,"PE");
("SPGP",(-12318),(-7525207),680,"CO");
("SPHI",(-679868),(-7982953),97,"PE");
("SPHO",(-1316653),(-7420936),8917,"PE");
("SPHY",(-1371621),(-7335659),11300,"PE");
("SPHZ",(-933449),(-7760272),9097,"PE");
("SPIL",(-1327084),(-7069019),2047,"PE");
("SPIM",(-1200763),(-7712135),113,"PE");
("SPIP",(-1128633),(-7463732),2100,"PE");
("SPIR",(-1301046),(-7127201),2221,"PE");
("SPIY",(-1479515),(-7143207),12972,"PE");
("SPIZ",(-847127),(-7635080),1965,"PE");
("SPJA",(-605959),(-7716207),2707,"PE");
("SPJB",(-760312),(-7805303),8727,"PE");
("SPJE",(-558209),(-7877712),2477,"PE");
("SPJI",(-717698),(-7673390),1148,"PE");
("SPJJ",(-1177534),(-7548359),11034,"PE");
("SPJL",(-1546001),(-7017633),12552,"PE");
("SPJN",(-1534163),(-7515409),141,"PE");
("SPJR",(-712877),(-7849368),8781,"PE");
("SPLN",(-638971),(-7750892),5085,"PE");
("SPLO",(-1769028),(-7135472),72,"PE");
("SPLP",(-1217121),(-7700241),250,"PE");
("SPLS",(-841284),(-7513784),712,"PE");
("SPME",(-354376),(-8038836),115,"PE");
("SPMF",(-1131843),(-7453949),2247,"PE");
("SPMS",(-589315),(-7612634),587,"PE");
("SPNC",(-988314),(-7621539),6070,"PE");
("SPNP",(-1579483),(-7005904),13120,"PE");
("SPNT",(-358337),(-7475901),650,"PE");
("SPNU",(-1229007),(-7088720),1010,"PE");
("SPOL",(-1193267),(-7706330),410,"PE");
("SPON",(-689217),(-7515313),354,"PE");
("SPOV",(-1190410),(-6916725),748,"PE");
("SPPA",(-1112880),(-7435311),1217,"PE");
("SPPB",(-954529),(-7275480),659,"PE");
("SPPG",(-1067212),(-7783268),16,"PE");
("SPPY",(-619584),(-7786271),8333,"PE");
("SPQN",(-506166),(-7386870),394,"PE");
("SPQT",(-379095),(-7331821),306,"PE");
("SPQU",(-1633984),(-7158472),8405,"PE");
("SPRC",5422220,(-13032874),0,"CA");
("SPRF",(-1426121),(-7047771),14422,"PE");
("SPRM",(-1113283),(-7535144),2600,"PE");
("SPRU",(-809449),(-7911275),106,"PE");
("SPSO",(-1375562),(-7622888),39,"PE");
("SPST",(-649717),(-7637533),869,"PE");
("SPTE",(-1253044),(-7380456),2500,"PE");
("SPTI",(-937856),(-7496651),584,"PE");
("SPTN",(-1806393),(-7027976),1538,"PE");
("SPTR",(-891025),(-7473517),650,"PE");
("SPTU",(-1262892),(-6922878),659,"PE");
("SPUR",(-521679),(-8061886),120,"PE");
("SPVI",(-1083669),(-7624687),13458,"PE");
("SPVL",(-1576015),(-7336938),5676,"PE");
("SPYL",(-456568),(-8125607),282,"PE");
("SPYO",(-740038),(-7956844),95,"PE");
("SPYU",(-1561633),(-7454181),489,"PE");
("SPZA",(-1485606),(-7496606),1860,"PE");
("SPZO",(-1353414),(-7195439),10860,"PE");
("SSAB",(-2376671),(-5026637),1968,"BR");
("SSAC",(-1259612),(-5570186),1230,"BR");
("SSAD",(-1876317),(-5292579),2736,"BR");
("SSAE",(-3222700),(-5307108),161,"BR");
("SSAF",(-2536665),(-5447457),840,"PY");
("SSAG",(-1971725),(-5272982),1410,"BR");
("SSAJ",(-2227797),(-5331516),1109,"BR");
("SSAK",(-2866123),(-5361219),1542,"BR");
("SSAL",(-2979369),(-5576744),361,"BR");
("SSAM",(-2313835),(-5520863),1542,"PY");
("SSAN",(-2302920),(-5023195),1608,"BR");
("SSAP",(-2361014),(-5139131),2641,"BR");
("SSAQ",(-2824678),(-5252050),1968,"BR");
("SSAR",(-2150014),(-5396896),1214,"BR");
("SSAT",(-1207193),(-5282543),1099,"BR");
("SSAU",(-3074610),(-5143194),14,"BR");
("SSAV",(-2168639),(-5747528),400,"BR");
("SSAW",(-2080176),(-5407911),1493,"BR");
("SSAY",(-2049344),(-5448529),1946,"BR");
("SSBA",(-1903174),(-5367539),2017,"BR");
("SSBB",(-2066830),(-5663060),1207,"BR");
("SSBC",(-2072594),(-5159438),1115,"BR");
("SSBD",(-2939949),(-5299141),1444,"BR");
("SSBE",(-1959485),(-5402544),1848,"BR");
("SSBF",(-2000739),(-5139036),1400,"BR");
("SSBG",(-2914626),(-5154104),2209,"BR");
("SSBH",(-1756428),(-5528937),453,"BR");
("SSBJ",(-2860791),(-5045332),3514,"BR");
("SSBK",(-1758780),(-5464022),1886,"BR");
("SSBL",(-2682419),(-4909191),60,"BR")].
(** openap/data/nav/airports.csv:9502-10001 *)
Definition apts19 : list apt := [
("SSBM",(-2030061),(-5542551),650,"BR");
("SSBN",(-3019001),(-5118740),20,"BR");
("SSBO",(-2872242),(-5489391),787,"BR");
("SSBQ",(-2174282),(-5248254),1230,"BR");
("SSBR",(-2306793),(-5042661),1319,"BR");
("SSBS",(-2125368),(-5228962),1155,"BR");
("SSBT",(-2231879),(-5309551),1033,"BR");
("SSBU",(-2145216),(-5714219),1191,"BR");
("SSBV",(-2208722),(-5654062),770,"BR");
("SSBW",(-2091421),(-5501598),1083,"BR");
("SSBX",(-1844026),(-5480325),696,"BR");
("SSBY",(-2009339),(-5679552),443,"BR");
("SSBZ",(-2967960),(-5098294),56,"BR");
("SSCA",(-1874211),(-5262500),2657,"BR");
("SSCB",(-1377515),(-4995082),978,"BR");
("SSCD",(-1884565),(-5249157),2644,"BR");
("SSCE",(-3133063),(-5413457),722,"BR");
("SSCF",(-2543133),(-4953439),3140,"BR");
("SSCH",(-2159878),(-5323007),1053,"BR");
("SSCI",(-1848725),(-5471617),957,"BR");
("SSCJ",(-2154522),(-5466129),1070,"BR");
("SSCK",(-2717636),(-5205853),2461,"BR");
("SSCL",(-1914483),(-5168925),1568,"BR");
("SSCM",(-2162745),(-5481172),1312,"BR");
("SSCN",(-2937400),(-5083686),2723,"BR");
("SSCO",(-3177780),(-5245242),33,"BR");
("SSCP",(-2315671),(-5060767),1854,"BR");
("SSCQ",(-2990518),(-5492983),285,"BR");
("SSCR",(-2451893),(-5405573),1411,"BR");
("SSCS",(-2061515),(-5472420),1968,"BR");
("SSCT",(-2369637),(-5264451),1837,"BR");
("SSCU",(-887117),(-5048208),1007,"BR");
("SSCV",(-3013509),(-5051196),14,"BR");
("SSCW",(-1804392),(-5600743),443,"BR");
("SSCX",(-2811293),(-5231929),2133,"BR");
("SSDA",(-1367784),(-5553240),1558,"BR");
("SSDB",(-2203757),(-5373457),1280,"BR");
("SSDC",(-2629507),(-5363048),2723,"AR");
("SSDE",(-2198276),(-5424016),1083,"BR");
("SSDF",(-2010253),(-5734697),312,"BR");
("SSDG",(-935105),(-4556440),1962,"BR");
("SSDH",(-2020172),(-5706599),541,"BR");
("SSDI",(-565529),(-4370825),584,"BR");
("SSDJ",(-1905279),(-5406682),1252,"BR");
("SSDK",(-2259221),(-5369248),1099,"BR");
("SSDL",(-800422),(-4534204),1588,"BR");
("SSDM",(-3082294),(-5557971),1073,"BR");
("SSDN",(-910384),(-4542072),1932,"BR");
("SSDP",(-3099771),(-5467110),443,"BR");
("SSDQ",(-2018571),(-5663720),446,"BR");
("SSDS",(-1370209),(-5064961),935,"BR");
("SSDT",(-794205),(-5018065),794,"BR");
("SSDU",(-1799577),(-5422534),1309,"BR");
("SSDV",(-1821117),(-5546600),508,"BR");
("SSDW",(-1291794),(-5552115),1197,"BR");
("SSDX",(-3099738),(-5170178),33,"BR");
("SSDY",(-1615805),(-5301394),1411,"BR");
("SSDZ",(-2313052),(-5463551),1312,"BR");
("SSEA",(-2222051),(-5474297),1470,"BR");
("SSEB",(-1377159),(-4677550),1440,"BR");
("SSED",(-1795936),(-5442167),1132,"BR");
("SSEE",(-2945535),(-5193615),105,"BR");
("SSEF",(-2132964),(-4723108),4632,"BR");
("SSEG",(-3194340),(-5248303),33,"BR");
("SSEH",(-1795564),(-5325151),2946,"BR");
("SSEI",(-2033400),(-5670048),489,"BR");
("SSEK",(-2002054),(-5325504),1299,"BR");
("SSEL",(-2017250),(-5293559),1601,"BR");
("SSEO",(-2073070),(-5357949),1299,"BR");
("SSEP",(-3017879),(-5358384),502,"BR");
("SSEQ",(-2191936),(-5394118),1099,"BR");
("SSER",(-2765861),(-5227361),2498,"BR");
("SSES",(-3056130),(-5258421),1460,"BR");
("SSET",(-2169533),(-4731890),2451,"BR");
("SSEU",(-728710),(-5658273),915,"BR");
("SSEV",(-1808884),(-5713369),289,"BO");
("SSEW",(-2314307),(-4831265),3084,"BR");
("SSEX",(-1997115),(-5631315),361,"BR");
("SSEY",(-2943582),(-5630529),197,"BR");
("SSEZ",(-2873956),(-5285931),1198,"BR");
("SSFA",(-2598352),(-5164774),3645,"BR");
("SSFB",(-2606223),(-5306921),2100,"BR");
("SSFC",(-1828317),(-5123691),1969,"BR");
("SSFD",(-2300621),(-5470174),1224,"BR");
("SSFE",(-2546526),(-5459877),558,"PY");
("SSFF",(-2118222),(-5429328),1204,"BR");
("SSFG",(-2266254),(-5213440),925,"BR");
("SSFH",(-1978528),(-4781138),2438,"BR");
("SSFI",(-2219474),(-5558470),1837,"BR");
("SSFJ",(-2081151),(-5462063),1435,"BR");
("SSFK",(-1990980),(-5778141),259,"BR");
("SSFL",(-710025),(-4063374),1466,"BR");
("SSFM",(-2354062),(-5009950),1526,"BR");
("SSFN",(-2262256),(-5492737),1706,"BR");
("SSFO",(-2004326),(-5632121),354,"BR");
("SSFP",(-2086099),(-5217824),1145,"BR");
("SSFQ",(-2131555),(-5473832),1608,"BR");
("SSFR",(-2028366),(-4919605),1598,"BR");
("SSFU",(-2384405),(-5481721),1739,"PY");
("SSFV",(-2020424),(-5378341),1509,"BR");
("SSFW",(-1867555),(-5439679),1063,"BR");
("SSFX",(-2345573),(-5057951),2239,"BR");
("SSGA",(-2926536),(-5153614),2231,"BR");
("SSGB",(-2588608),(-4861210),49,"BR");
("SSGC",(-2045878),(-5575728),566,"BR");
("SSGE",(-2051051),(-5184236),1180,"BR");
("SSGF",(-2020493),(-5322577),1575,"BR");
("SSGG",(-2103093),(-5749754),381,"PY");
("SSGH",(-2007409),(-5607334),410,"BR");
("SSGI",(-3005992),(-5144216),33,"BR");
("SSGJ",(-1724937),(-5628049),331,"BR");
("SSGK",(-2146009),(-5545986),1699,"BR");
("SSGL",5145120,(-12614089),7349,"CA");
("SSGM",(-2169432),(-5656624),1151,"BR");
("SSGN",(-2323473),(-5454236),1401,"BR");
("SSGO",(-1942587),(-5459130),2211,"BR");
("SSGP",(-1585450),(-4780960),3281,"BR");
("SSGQ",(-2176716),(-5432306),709,"BR");
("SSGR",(-2889308),(-5186071),1555,"BR");
("SSGS",(-1540270),(-5418318),1975,"BR");
("SSGT",(-2169648),(-5481746),1050,"BR");
("SSGU",(-2319618),(-5333102),886,"BR");
("SSGV",(-2786249),(-5219163),2149,"BR");
("SSGW",(-2422394),(-5304744),1608,"BR");
("SSGX",(-1957234),(-5624517),312,"BR");
("SSGY",(-2408406),(-5419716),889,"PY");
("SSGZ",(-2289926),(-5386965),1050,"BR");
("SSHA",(-2048487),(-5577340),620,"BR");
("SSHB",(-2332323),(-5347202),1007,"BR");
("SSHC",(-2342886),(-5017066),1447,"BR");
("SSHD",(-2200188),(-5490468),1368,"BR");
("SSHF",(-1802999),(-5748422),328,"BO");
("SSHG",(-2235672),(-5576948),2281,"BR");
("SSHI",(-2326512),(-5403918),1237,"BR");
("SSHJ",(-2226421),(-5549110),1686,"BR");
("SSHK",(-2259429),(-5557398),1968,"BR");
("SSHL",(-2357615),(-5241207),1213,"BR");
("SSHN",(-2324565),(-5188041),1637,"BR");
("SSHO",(-1865841),(-4485416),2208,"BR");
("SSHQ",(-2056135),(-5486896),1280,"BR");
("SSHT",(-1012781),(-5672178),853,"BR");
("SSHU",(-1945723),(-5604851),426,"BR");
("SSHW",(-2341307),(-5401378),1056,"BR");
("SSHX",(-2391952),(-5530349),1368,"BR");
("SSHZ",(-2763464),(-5434239),1063,"BR");
("SSIA",(-842568),(-4533592),1739,"BR");
("SSIB",(-1947856),(-5281602),1574,"BR");
("SSIC",(-2231000),(-5482411),1405,"BR");
("SSID",(-2227530),(-5338910),1135,"BR");
("SSIE",(-2060385),(-5460741),1729,"BR");
("SSIF",(-2355548),(-5403755),970,"BR");
("SSIG",(-2026702),(-5573138),617,"BR");
("SSIH",(-2094860),(-5272646),1296,"BR");
("SSII",(-2201989),(-5632493),1001,"BR");
("SSIJ",(-2836310),(-5384858),1197,"BR");
("SSIM",(-3025279),(-5584145),764,"BR");
("SSIO",(-3149789),(-5369271),741,"BR");
("SSIP",(-2119461),(-5704206),919,"BR");
("SSIQ",(-2916844),(-5654259),230,"BR");
("SSIR",(-2860517),(-5308263),1344,"BR");
("SSIS",(-2453976),(-4992507),3501,"BR");
("SSIT",(-2549861),(-5065556),2930,"BR");
("SSIU",(-3013334),(-5236839),32,"BR");
("SSIV",(-2230213),(-5383451),1194,"BR");
("SSIW",(-1997973),(-5643591),344,"BR");
("SSIX",(-2265565),(-5350731),984,"BR");
("SSIY",(-2153294),(-4974339),1411,"BR");
("SSJA",(-2716796),(-5155829),2546,"BR");
("SSJB",(-1886022),(-5434833),1253,"BR");
("SSJC",(-2998556),(-5130299),26,"BR");
("SSJE",(-2314684),(-4994905),1749,"BR");
("SSJG",(-2121955),(-5768172),351,"PY");
("SSJH",(-2216815),(-5357766),787,"BR");
("SSJI",(-2148884),(-5615352),1053,"BR");
("SSJJ",(-2181055),(-5313085),1377,"BR");
("SSJK",(-2915203),(-5374913),1631,"BR");
("SSJL",(-1935121),(-5377221),1706,"BR");
("SSJM",(-1885590),(-5250340),2621,"BR");
("SSJO",(-1937936),(-5745306),511,"BR");
("SSJP",(-2289640),(-5193258),1428,"BR");
("SSJQ",(-1281157),(-5188183),1266,"BR");
("SSJR",(-3254249),(-5339014),66,"BR");
("SSJT",(-2084476),(-5320879),1082,"BR");
("SSJU",(-1938372),(-5231269),1200,"BR");
("SSJV",(-1794547),(-5648023),150,"BO");
("SSJW",(-2178052),(-5389522),1017,"BR");
("SSJX",(-1947462),(-5701657),150,"BR");
("SSJY",(-1771041),(-5621796),150,"BR");
("SSJZ",(-2405548),(-5400627),1000,"BR");
("SSKA",(-1890823),(-5635946),328,"BR");
("SSKB",(-1947197),(-5637973),312,"BR");
("SSKC",(-1929145),(-5206348),1758,"BR");
("SSKD",(-1974635),(-5547045),410,"BR");
("SSKE",(-2312450),(-5307658),984,"BR");
("SSKF",(-2333307),(-5387101),1180,"BR");
("SSKG",(-2050856),(-5452959),2028,"BR");
("SSKH",(-2291331),(-5554240),1853,"PY");
("SSKI",(-2334043),(-5058746),1673,"BR");
("SSKJ",(-2430307),(-5141403),1575,"BR");
("SSKK",(-2976522),(-5004014),33,"BR");
("SSKL",(-2341051),(-5522761),1542,"PY");
("SSKM",(-2401563),(-5235700),1854,"BR");
("SSKN",(-2766832),(-5381413),1460,"BR");
("SSKO",(-2047452),(-5583711),544,"BR");
("SSKP",(-2431238),(-5384247),1050,"BR");
("SSKQ",(-1454556),(-5046276),1000,"BR");
("SSKR",(-1717261),(-5082717),2306,"BR");
("SSKS",(-3000041),(-5294582),253,"BR");
("SSKT",(-2761574),(-4867362),20,"BR");
("SSKU",(-2728269),(-5061642),3130,"BR");
("SSKV",(-2239946),(-5548730),1738,"BR");
("SSKW",(-1148563),(-6118080),807,"BR");
("SSKX",(-1986756),(-5065731),1250,"BR");
("SSKY",(-1446970),(-5835918),2362,"BR");
("SSKZ",(-2832141),(-5282482),1854,"BR");
("SSLA",(-2838288),(-4874578),20,"BR");
("SSLB",(-1902682),(-5592825),394,"BR");
("SSLC",(-2267740),(-5523699),1755,"BR");
("SSLD",(-1864749),(-5675974),328,"BR");
("SSLE",(-1242584),(-5568887),1224,"BR");
("SSLF",(-2254715),(-5342903),885,"BR");
("SSLG",(-2838000),(-5504206),653,"BR");
("SSLH",(-533818),(-5776458),397,"BR");
("SSLI",(-3083098),(-5562860),1096,"UY");
("SSLJ",(-1426966),(-4702663),1434,"BR");
("SSLK",(-1822060),(-5516072),394,"BR");
("SSLL",(-2224024),(-5593324),1788,"BR");
("SSLN",(-2716294),(-4954701),1096,"BR");
("SSLO",(-2292097),(-5315240),1542,"BR");
("SSLP",(-2191530),(-5764637),299,"BR");
("SSLQ",(-2278088),(-5507691),1362,"BR");
("SSLR",(-1910793),(-5759361),413,"BR");
("SSLS",(-2551849),(-5256222),2087,"BR");
("SSLT",(-2980906),(-5589807),459,"BR");
("SSLU",(-2152038),(-5661303),754,"BR");
("SSLW",(-2197601),(-5679729),853,"BR");
("SSLX",(-2270952),(-5460866),1296,"BR");
("SSLZ",(-2252415),(-5366421),1296,"BR");
("SSMC",(-2208438),(-5352254),1209,"BR");
("SSMD",(-2530847),(-5407582),1473,"BR");
("SSME",(-2098507),(-5556618),804,"BR");
("SSMF",(-2616291),(-4983306),2687,"BR");
("SSMH",(-3192698),(-5246527),66,"BR");
("SSMI",(-2208690),(-5630359),1148,"PY");
("SSMJ",(-2163838),(-5514466),1283,"BR");
("SSMK",(-3007361),(-5141060),20,"BR");
("SSML",(-2359828),(-5464961),1083,"BR");
("SSMN",(-888119),(-5733170),1640,"BR");
("SSMP",(-2367524),(-5201199),1391,"BR");
("SSMR",(-2452388),(-5164982),2822,"BR");
("SSMS",(-2286306),(-5549648),1522,"PY");
("SSMT",(-3110778),(-5091389),59,"BR");
("SSMV",(-2203965),(-4756242),2434,"BR");
("SSMW",(-2431789),(-4701342),49,"BR");
("SSMX",(-2112423),(-4642613),3868,"BR");
("SSMY",(-2539610),(-5426746),951,"BR");
("SSMZ",(-1391266),(-5998639),1070,"BR");
("SSNA",(-1990450),(-5644309),436,"BR");
("SSNB",(-2303547),(-5418625),1329,"BR");
("SSNC",(-1871609),(-5187281),1877,"BR");
("SSND",(-1117093),(-5282322),1119,"BR");
("SSNE",(-1712988),(-5639302),371,"BR");
("SSNF",(-2032706),(-4881153),1739,"BR");
("SSNG",(-2971736),(-5149344),125,"BR");
("SSNH",(-2970120),(-5108232),66,"BR");
("SSNI",(-2298974),(-5387803),1247,"BR");
("SSNJ",(-2911734),(-5322303),1063,"BR");
("SSNK",(-1684743),(-5407687),2362,"BR");
("SSNL",(-1431826),(-5577228),1818,"BR");
("SSNM",(-996152),(-5488636),968,"BR");
("SSNN",(-1719765),(-4578185),1749,"BR");
("SSNO",(-2737164),(-5273445),1968,"BR");
("SSNP",(-2880025),(-5160878),2264,"BR");
("SSNQ",(-2117918),(-5583158),981,"BR");
("SSNR",(-1831380),(-5493699),754,"BR");
("SSNT",(-2328941),(-5505802),1289,"BR");
("SSNU",(-2224084),(-4802938),2582,"BR");
("SSNV",(-1923548),(-5703037),285,"BR");
("SSNW",(-1230006),(-4552092),2408,"BR");
("SSNY",(-1718858),(-5821904),541,"BO");
("SSOC",(-1903504),(-5695365),305,"BR");
("SSOD",(-2024512),(-5641909),374,"BR");
("SSOE",(-2677605),(-5350543),2180,"AR");
("SSOF",(-1519238),(-4353158),1575,"BR");
("SSOG",(-2334885),(-5149567),2599,"BR");
("SSOI",(-2230362),(-4877618),1788,"BR");
("SSOJ",(-1998052),(-5173908),1476,"BR");
("SSOK",(-2321481),(-5119039),1932,"BR");
("SSOL",(-2124646),(-4496745),3146,"BR");
("SSON",(-2378749),(-5503260),1476,"PY");
("SSOO",(-2233919),(-4954547),1903,"BR");
("SSOP",(-2004914),(-5147590),1539,"BR");
("SSOQ",(-1957900),(-5615663),502,"BR");
("SSOR",(-2981586),(-5571618),354,"BR");
("SSOS",(-2990281),(-5025571),39,"BR");
("SSOT",(-1635437),(-4534761),1946,"BR");
("SSOU",(-1703515),(-4626562),1772,"BR");
("SSOV",(-1615030),(-4582696),1837,"BR");
("SSOW",(-684415),(-5658845),973,"BR");
("SSOY",(-1229217),(-5702275),971,"BR");
("SSPB",(-2622175),(-5270083),2697,"BR");
("SSPC",(-1373483),(-5134564),866,"BR");
("SSPD",(-1476890),(-6003844),922,"BR");
("SSPE",(-1443764),(-5561358),837,"BR");
("SSPF",(-2477428),(-5412014),1420,"BR");
("SSPG",(-2554445),(-4853659),16,"BR");
("SSPI",(-2308785),(-5249545),1526,"BR");
("SSPJ",(-2584700),(-5201829),3438,"BR");
("SSPK",(-2276759),(-5136888),1424,"BR");
("SSPL",(-2790500),(-5333325),2083,"BR");
("SSPM",(-2170387),(-5788174),260,"BR");
("SSPN",(-1964775),(-5120456),1446,"BR");
("SSPO",(-2201230),(-5479112),1165,"BR");
("SSPP",(-3165985),(-5221203),39,"BR");
("SSPQ",(-944162),(-7048419),751,"BR");
("SSPR",(-826774),(-7274632),794,"BR");
("SSPS",(-2647663),(-5197719),3609,"BR");
("SSPT",(-2434849),(-5383035),1220,"BR");
("SSPV",(-895535),(-7278256),751,"BR");
("SSPX",(-885313),(-6926726),531,"BR");
("SSPY",(-1767374),(-5775272),390,"BO");
("SSPZ",(-2272197),(-4805304),1749,"BR");
("SSQA",(-1371848),(-6031831),830,"BR");
("SSQB",(-918712),(-7195031),1197,"PE");
("SSQC",(-2367410),(-4982120),2313,"BR");
("SSQF",(-2381273),(-5470474),1623,"BR");
("SSQI",(-1250963),(-5568857),1250,"BR");
("SSQL",(-1411543),(-5012571),3609,"BR");
("SSQM",(-1354611),(-4248601),2464,"BR");
("SSQN",(-1176946),(-4042309),1788,"BR");
("SSQO",(-2008361),(-5389135),1590,"BR");
("SSQP",(-1047452),(-3928996),1362,"BR");
("SSQR",(-2139147),(-5360437),1286,"BR");
("SSQS",(-1503656),(-5232427),1001,"BR");
("SSQT",(-2481286),(-4996411),3314,"BR");
("SSQU",(-2006501),(-5570453),410,"BR");
("SSQZ",(-1210753),(-4590098),2408,"BR");
("SSRA",(-2171304),(-5309823),1384,"BR");
("SSRB",(-2184444),(-5452942),1024,"BR");
("SSRC",(-2170730),(-5437020),1084,"BR");
("SSRD",(-2339412),(-5524925),1443,"PY");
("SSRE",(-2580525),(-5351692),1693,"BR");
("SSRF",(-1276400),(-3945247),869,"BR");
("SSRG",(-2277640),(-5498007),1319,"BR");
("SSRH",(-2078204),(-5598382),577,"BR");
("SSRI",(-2075513),(-5603353),551,"BR");
("SSRJ",(-2187868),(-5381405),1181,"BR");
("SSRK",(-951378),(-4300195),1519,"BR");
("SSRL",(-2203267),(-5419224),1001,"BR");
("SSRM",(-2101661),(-5627896),791,"BR");
("SSRN",(-2631983),(-4952608),3025,"BR");
("SSRO",(-2289438),(-5411713),1217,"BR");
("SSRQ",(-3092079),(-5447160),709,"BR");
("SSRS",(-2719457),(-4983103),1476,"BR");
("SSRT",(-154177),(-5518346),289,"BR");
("SSRU",(-3138779),(-5203447),26,"BR");
("SSRW",(-2320182),(-4810814),1781,"BR");
("SSRX",(-1277806),(-5111795),591,"BR");
("SSRY",(-2997305),(-5236421),230,"BR");
("SSRZ",(-3027759),(-5493153),348,"BR");
("SSSA",(-2203112),(-5619295),1047,"BR");
("SSSB",(-2865852),(-5604095),246,"BR");
("SSSC",(-2968620),(-5241798),646,"BR");
("SSSD",(-2885787),(-5254392),2162,"BR");
("SSSF",(-2010111),(-5244901),1476,"BR");
("SSSG",(-3034896),(-5427073),469,"BR");
("SSSH",(-1920106),(-5701382),275,"BR");
("SSSK",(-450629),(-4392281),226,"BR");
("SSSO",(-2140946),(-5203513),984,"BR");
("SSSP",(-2004081),(-5631570),328,"BR");
("SSSQ",(-2825464),(-4991791),4462,"BR");
("SSSR",(-2031712),(-5273561),1476,"BR");
("SSSS",(-2621802),(-4856550),49,"BR");
("SSST",(-2920937),(-5484442),1460,"BR");
("SSSW",(-1971912),(-5195350),1575,"BR");
("SSSX",(-1893586),(-5701784),300,"BR");
("SSSY",(-2252028),(-5351404),781,"BR");
("SSSZ",(-2306248),(-5101948),1178,"BR");
("SSTA",(-3029671),(-5480463),709,"BR");
("SSTB",(-2614156),(-5031322),2559,"BR");
("SSTD",(-2855106),(-5159820),2311,"BR");
("SSTF",(-1787520),(-5713023),328,"BO");
("SSTG",(-1847143),(-5705698),530,"BR");
("SSTH",(-2552204),(-4968707),3346,"BR");
("SSTI",(-1645663),(-3916813),279,"BR");
("SSTJ",(-2734755),(-4982550),1322,"BR");
("SSTK",(-2368117),(-5454328),794,"BR");
("SSTL",(-2075691),(-5168809),1050,"BR");
("SSTN",(-2168003),(-4821584),2283,"BR");
("SSTO",(-2751132),(-5390447),1503,"BR");
("SSTP",(-1796653),(-5032410),1591,"BR");
("SSTQ",88189,(-5188034),459,"BR");
("SSTS",(-2260805),(-5345077),813,"BR");
("SSTU",(-1872816),(-5410936),1250,"BR");
("SSTX",(-1619531),(-4307835),2920,"BR");
("SSTY",(-2555615),(-5318005),1640,"BR");
("SSUA",(-1762722),(-5477194),1575,"BR");
("SSUC",(-2148943),(-5320788),1194,"BR");
("SSUI",(-710190),(-4875818),984,"BR");
("SSUL",(-2548010),(-4915424),3215,"BR");
("SSUM",(-2380454),(-5331627),1558,"BR");
("SSUQ",(-2075804),(-5504956),915,"BR");
("SSUR",(-2158227),(-5287542),1264,"BR");
("SSUS",(-1658011),(-5486250),1968,"BR");
("SSUT",(-1444209),(-5830281),705,"BR");
("SSUU",(-1074168),(-4948412),761,"BR");
("SSUV",(-2622918),(-5107041),2467,"BR");
("SSUW",(-2277649),(-5150786),1470,"BR");
("SSUX",(-2048510),(-4837519),1597,"BR");
("SSUY",(-2064544),(-5148120),1115,"BR");
("SSUZ",(-2066263),(-5084794),1322,"BR");
("SSVA",(-1906055),(-5763051),805,"BR");
("SSVB",(-2306510),(-5382062),1086,"BR");
("SSVC",(-2850666),(-5092258),3212,"BR");
("SSVD",(-2429815),(-5325150),1312,"BR");
("SSVE",(-2381679),(-5505883),1250,"PY");
("SSVF",(-2295704),(-4915109),2557,"BR");
("SSVG",(-2228123),(-5565406),2016,"BR");
("SSVH",(-2236163),(-5512926),1398,"BR");
("SSVI",(-2700061),(-5114926),2756,"BR");
("SSVJ",(-2186756),(-5575222),2280,"BR");
("SSVK",(-2279890),(-5415804),1299,"BR");
("SSVL",(-2252566),(-5467737),1476,"BR");
("SSVM",(-2200639),(-5497681),1499,"BR");
("SSVN",(-2893509),(-5157395),2133,"BR");
("SSVO",(-2086857),(-5013053),1437,"BR");
("SSVP",(-3350160),(-5334898),82,"BR");
("SSVQ",(-2241479),(-5498895),1510,"BR");
("SSVU",(-1770116),(-4435585),3773,"BR");
("SSVV",(-2129046),(-5611969),1050,"BR");
("SSVW",(-1451334),(-5956093),975,"BR");
("SSVX",(-1850727),(-5642965),394,"BR");
("SSVY",(-2093588),(-4817665),1575,"BR");
("SSWA",(-2961814),(-5221770),223,"BR");
("SSWB",(-1601453),(-4756180),3442,"BR");
("SSWC",(-1892957),(-5307056),2608,"BR");
("SSWD",(-2719032),(-5324105),1145,"BR");
("SSWE",(-2174837),(-5094841),1450,"BR");
("SSWF",(-2734568),(-5340552),1857,"BR");
("SSWH",(-2191582),(-4782423),2300,"BR");
("SSWK",(-2303464),(-5049638),1148,"BR");
("SSWL",(-128550),(-4821749),115,"BR");
("SSWM",(-2350077),(-5130554),2461,"BR");
("SSWN",(-1623136),(-5759433),820,"BO");
("SSWO",(-2296937),(-5407715),1083,"BR");
("SSWP",(-873728),(-5021186),797,"BR");
("SSWQ",(-1252808),(-5562948),1283,"BR");
("SSWR",(-2188300),(-5429778),1113,"BR");
("SSWS",(-3055119),(-5346498),1309,"BR");
("SSWT",(-2900117),(-5008086),3527,"BR");
("SSWV",(-2358904),(-5004498),1772,"BR");
("SSWW",(-1867642),(-5589529),262,"BR");
("SSWX",(-1902737),(-5629322),262,"BR");
("SSWZ",(-1851317),(-4627380),3458,"BR");
("SSXA",(-2303850),(-5093787),1526,"BR");
("SSXB",(-1715804),(-5657300),551,"BR");
("SSXC",(-1705377),(-5608501),571,"BR");
("SSXD",(-2797766),(-5286828),2031,"BR");
("SSXH",(-1370205),(-5629463),1099,"BR");
("SSXI",(-1118515),(-5679250),1201,"BR");
("SSXK",(-1287819),(-5674127),1001,"BR");
("SSXL",(-2043870),(-5633689),554,"BR");
("SSXM",(-2278790),(-5388698),1443,"BR");
("SSXN",(-830137),(-5511868),820,"BR");
("SSXO",(-2328782),(-5213394),1932,"BR");
("SSXP",(-362294),(-4875834),523,"BR");
("SSXQ",(-1932923),(-5197813),1466,"BR");
("SSXR",(-295381),(-5115043),974,"BR");
("SSXU",(-315917),(-4854381),276,"BR");
("SSXV",(-2295452),(-5411253),1201,"BR");
("SSXW",(-1880689),(-5260446),2625,"BR");
("SSXX",(-2687216),(-5237404),2986,"BR");
("SSXY",(-962076),(-6067171),459,"BR");
("SSXZ",(-1975155),(-5012921),1348,"BR");
("SSYA",(-2410926),(-4979259),2641,"BR");
("SSYB",(-2828131),(-4870009),33,"BR");
("SSYC",(-1904864),(-5296761),1959,"BR");
("SSYD",(-754808),(-4921296),643,"BR");
("SSYE",(-1531820),(-5850236),1033,"BR");
("SSYF",(-1887684),(-4872242),2762,"BR");
("SSYL",(-2333579),(-5457039),1142,"BR");
("SSYM",(-2009078),(-5661672),548,"BR");
("SSYN",(-2008280),(-5667080),427,"BR");
("SSYO",(-1525964),(-5561616),1155,"BR");
("SSYP",(-452382),(-4392045),190,"BR");
("SSYQ",(-2838148),(-5288124),1752,"BR");
("SSYR",(-2034932),(-5232811),1214,"BR");
("SSYS",(-1990540),(-5253752),1552,"BR");
("SSYT",(-2713840),(-5368694),1247,"BR");
("SSYU",(-1982436),(-5258867),1621,"BR");
("SSYV",(-1972202),(-5285278),1650,"BR");
("SSYW",(-1826969),(-5478703),1460,"BR");
("SSYY",(-1895255),(-5315397),1923,"BR");
("SSYZ",(-2285514),(-5540181),2080,"PY");
("SSZA",(-1772344),(-5675588),331,"BO");
("SSZB",(-1820788),(-5681200),331,"BO");
("SSZC",(-1801447),(-5500240),590,"BR");
("SSZF",(-1847914),(-5602447),150,"BR");
("SSZG",(-1926148),(-5289813),1575,"BR");
("SSZH",(-2365164),(-5471724),928,"BR")].
(** openap/data/nav/airports.csv:10002-10501 *)
Definition apts20 : list apt := [
("SSZJ",(-1818367),(-5450856),899,"BR");
("SSZK",(-2221072),(-5730739),410,"BR");
("SSZL",(-2145794),(-5217179),994,"BR");
("SSZM",(-1783271),(-5755436),377,"BO");
("SSZN",(-2518314),(-5092515),2451,"BR");
("SSZO",(-865662),(-5045977),804,"BR");
("SSZP",(-2269213),(-5421699),1499,"BR");
("SSZQ",(-2203344),(-5627231),1197,"BR");
("SSZR",(-2790931),(-5452575),984,"BR");
("SSZS",(-2283204),(-5160896),1588,"BR");
("SSZT",(-2279937),(-4934308),2146,"BR");
("SSZU",(-1949644),(-5304509),1099,"BR");
("SSZV",(-1206346),(-5153739),1066,"BR");
("SSZW",(-2519208),(-5014992),2588,"BR");
("SSZX",(-1952100),(-5097371),1447,"BR");
("SSZY",(-1966720),(-5095316),1414,"BR");
("SSZZ",(-1771051),(-5441282),2024,"BR");
("SUAA",(-3478336),(-5626510),174,"UY");
("SUDU",(-3336939),(-5650462),305,"UY");
("SULO",(-3395930),(-5828992),33,"UY");
("SULS",(-3485984),(-5511234),95,"UY");
("SUME",(-3324512),(-5807518),69,"UY");
("SUMU",(-3484404),(-5603999),105,"UY");
("SUPE",(-3491071),(-5492070),0,"UY");
("SUPU",(-3237008),(-5806330),177,"UY");
("SUSO",(-3144405),(-5799054),187,"AR");
("SUTR",(-3320080),(-5435540),338,"UY");
("SUVO",(-3176440),(-5462129),489,"UY");
("SVAC",955558,(-6924556),741,"VE");
("SVAJ",881971,(-6589273),394,"VE");
("SVAN",943027,(-6447645),721,"VE");
("SVAS",657300,(-6682150),266,"CO");
("SVAT",405770,(-6770449),298,"VE");
("SVAX",999573,(-7258308),394,"VE");
("SVBC",1012182,(-6470053),26,"VE");
("SVBI",862016,(-7022184),666,"VE");
("SVBK",926133,(-7023387),5085,"VE");
("SVBL",1018133,(-6757150),1450,"VE");
("SVBM",1004031,(-6937181),2042,"VE");
("SVBQ",1000801,(-7108374),43,"VE");
("SVBS",1025298,(-6766150),1338,"VE");
("SVCB",811763,(-6354378),197,"VE");
("SVCD",762744,(-6617159),141,"VE");
("SVCE",935174,(-6528507),203,"VE");
("SVCG",875662,(-7254136),98,"VE");
("SVCJ",965481,(-6858034),512,"VE");
("SVCL",892392,(-6742370),328,"VE");
("SVCN",622230,(-6285336),1450,"VE");
("SVCO",1017637,(-7007193),1437,"VE");
("SVCP",1066892,(-6326367),33,"VE");
("SVCR",1141307,(-6969092),52,"VE");
("SVCS",1028724,(-6682531),2145,"VE");
("SVCU",1044384,(-6414302),25,"VE");
("SVCZ",936934,(-6693634),525,"VE");
("SVDP",472758,(-6097132),2579,"VE");
("SVDW",749074,(-6327713),879,"VE");
("SVEB",867623,(-7233931),79,"VE");
("SVED",671520,(-6164473),318,"VE");
("SVEN",903394,(-7225220),66,"VE");
("SVEP",1019526,(-6744943),1555,"VE");
("SVET",735046,(-6253785),794,"VE");
("SVEZ",705846,(-6950194),295,"VE");
("SVFM",1048692,(-6685228),2739,"VE");
("SVGC",977230,(-7248938),138,"VE");
("SVGD",720584,(-7076425),426,"VE");
("SVGI",1056641,(-6231765),42,"VE");
("SVGT",(-742191),(-6193734),948,"BR");
("SVGU",902122,(-6976094),606,"VE");
("SVHD",989861,(-7255417),207,"VE");
("SVHG",1046058,(-6609787),10,"VE");
("SVHH",1081000,(-6964377),2460,"VE");
("SVIC",433399,(-6173839),1575,"VE");
("SVIE",1079416,(-6398703),10,"VE");
("SVJC",1177967,(-7016434),75,"VE");
("SVJM",990242,(-6738486),1404,"VE");
("SVKA",563721,(-6178576),3901,"VE");
("SVLF",823000,(-7227106),323,"VE");
("SVLM",949376,(-6290571),118,"VE");
("SVLO",1180457,(-6619203),5,"VE");
("SVMC",1054592,(-7173410),235,"VE");
("SVMD",857829,(-7116752),5007,"VE");
("SVMG",1090935,(-6398094),74,"VE");
("SVMI",1060376,(-6701276),235,"VE");
("SVMP",1013176,(-6679415),574,"VE");
("SVMT",974282,(-6316054),224,"VE");
("SVMZ",755503,(-6914592),295,"VE");
("SVNX",882620,(-6310151),272,"VE");
("SVOE",874293,(-6991881),530,"VE");
("SVOF",970231,(-6363035),803,"VE");
("SVOK",906106,(-6344949),485,"VE");
("SVON",1032539,(-7132961),164,"VE");
("SVPA",561017,(-6761188),245,"VE");
("SVPC",1048154,(-6808265),32,"VE");
("SVPE",997694,(-6223679),6,"VE");
("SVPM",779649,(-7220392),3314,"VE");
("SVPP",578883,(-6144881),4251,"VE");
("SVPQ",860289,(-6976178),404,"VE");
("SVPR",828450,(-6276869),472,"VE");
("SVPT",757247,(-7017842),347,"VE");
("SVQU",874958,(-6972733),427,"VE");
("SVRA",1057382,(-6298974),33,"VE");
("SVRB",1151111,(-6932006),39,"VE");
("SVRX",984634,(-7255173),229,"VE");
("SVSA",784901,(-7244187),1312,"VE");
("SVSB",780628,(-7117288),590,"VE");
("SVSE",455629,(-6115224),2939,"VE");
("SVSN",887397,(-6684644),394,"VE");
("SVSO",756992,(-7204806),1083,"VE");
("SVSP",1027329,(-6875925),761,"VE");
("SVSR",788599,(-6745249),154,"VE");
("SVST",894192,(-6415923),837,"VE");
("SVSZ",898660,(-7194315),32,"VE");
("SVTC",908578,(-6210115),105,"VE");
("SVTK",710542,(-6979514),328,"VE");
("SVTM",724434,(-6154142),344,"VE");
("SVUM",533490,(-6277176),1145,"VE");
("SVUP",798140,(-6233327),1056,"VE");
("SVUQ",(-522819),(-6176949),2821,"BR");
("SVVA",1015040,(-6794203),1417,"VE");
("SVVG",862204,(-7168741),249,"VE");
("SVVL",933185,(-7058696),1893,"VE");
("SVVP",921994,(-6600019),410,"VE");
("SVWB",1047942,(-6847827),49,"VE");
("SWAA",(-1454335),(-5059573),896,"BR");
("SWAB",(-969582),(-6536758),443,"BO");
("SWAC",(-1643989),(-5138998),1591,"BR");
("SWAE",354142,(-6318264),1083,"VE");
("SWAF",(-1648543),(-5466926),827,"BR");
("SWAH",(-1014265),(-6065677),325,"BR");
("SWAI",(-560186),(-4810546),312,"BR");
("SWAJ",(-3321877),(-5326511),56,"BR");
("SWAK",106363,(-6760382),492,"VE");
("SWAM",(-2364530),(-4915231),2166,"BR");
("SWAN",(-1449744),(-5701803),1329,"BR");
("SWAO",180259,(-6738736),335,"VE");
("SWAP",(-1533856),(-5731761),951,"BR");
("SWAQ",376546,(-6241235),689,"VE");
("SWAR",(-1308809),(-5158553),968,"BR");
("SWAT",(-1709075),(-5333659),2795,"BR");
("SWAU",(-1452670),(-5640411),850,"BR");
("SWAV",(-1407770),(-5745955),2037,"BR");
("SWAY",(-1572837),(-5183598),991,"BR");
("SWAZ",40355,(-6930187),394,"CO");
("SWBA",(-1812108),(-4904635),2844,"BR");
("SWBB",(-1505500),(-5718407),722,"BR");
("SWBC",(-98195),(-6292494),112,"BR");
("SWBF",(-1000592),(-4949702),741,"BR");
("SWBG",(-1520005),(-5938480),810,"BR");
("SWBH",(-1101515),(-4860374),869,"BR");
("SWBI",(-279543),(-5706242),69,"BR");
("SWBJ",(-1325641),(-5204410),1339,"BR");
("SWBL",(-192006),(-5941602),564,"BR");
("SWBN",(-1694868),(-5639433),377,"BR");
("SWBO",(-1427473),(-4965335),1542,"BR");
("SWBQ",(-1372779),(-5971816),2067,"BR");
("SWBR",(-440598),(-5960776),295,"BR");
("SWBS",(-1101477),(-6873804),489,"BR");
("SWBT",(-1037156),(-5582224),820,"BR");
("SWBU",(-1021278),(-5508607),1214,"BR");
("SWBV",400529,(-6449861),2484,"VE");
("SWBW",(-1477187),(-6003422),892,"BR");
("SWBX",(-1749083),(-5523304),650,"BR");
("SWBY",(-1805289),(-4970464),1820,"BR");
("SWBZ",(-1260280),(-5576736),1155,"BR");
("SWCA",(-487781),(-6690160),355,"BR");
("SWCB",(-1300889),(-4677998),2195,"BR");
("SWCC",(-1361790),(-6060242),705,"BR");
("SWCD",(-1593714),(-4865105),3888,"BR");
("SWCE",(-1621061),(-5540171),2310,"BR");
("SWCF",(-1372456),(-6048240),673,"BR");
("SWCG",(-1849672),(-5130045),2060,"BR");
("SWCH",(-1000500),(-5706753),820,"BR");
("SWCJ",(-1181311),(-4975196),699,"BR");
("SWCK",(-1268040),(-5271979),984,"BR");
("SWCL",(-954702),(-5741919),669,"BR");
("SWCM",(-1399572),(-5293380),1378,"BR");
("SWCN",(-1414503),(-5101981),784,"BR");
("SWCO",(-1471200),(-5121263),919,"BR");
("SWCP",(-1365054),(-5792777),1818,"BR");
("SWCQ",(-1242779),(-6425212),555,"BO");
("SWCR",(-1783639),(-5716838),328,"BO");
("SWCT",(-1736611),(-5678900),334,"BO");
("SWCU",(-1198000),(-4991238),787,"BR");
("SWCV",(-1549415),(-6008527),676,"BR");
("SWCW",(-1376973),(-4743065),2625,"BR");
("SWCX",(-1370354),(-6070219),1247,"BR");
("SWCY",(-1284250),(-5697925),1004,"BR");
("SWCZ",(-1534120),(-4960832),1962,"BR");
("SWDA",(-1494028),(-5217394),925,"BR");
("SWDB",(-1558225),(-5221808),1086,"BR");
("SWDC",(-1694257),(-5358007),2516,"BR");
("SWDE",(-1282080),(-5033858),722,"BR");
("SWDF",(-952248),(-5504416),1417,"BR");
("SWDG",(-2174440),(-4917005),1509,"BR");
("SWDI",(-1173628),(-4933435),771,"BR");
("SWDJ",(-1485362),(-5203799),886,"BR");
("SWDK",(-1301997),(-6117322),680,"BR");
("SWDM",(-1437032),(-5640401),1476,"BR");
("SWDN",(-1159639),(-4685360),2001,"BR");
("SWDO",(-1481798),(-5642079),699,"BR");
("SWDQ",(-1643508),(-5527430),1352,"BR");
("SWDS",(-1566174),(-5930918),846,"BR");
("SWDT",(-1427705),(-5770236),2178,"BR");
("SWDU",(-1103766),(-5311733),820,"BR");
("SWDV",(-1673647),(-5776886),361,"BO");
("SWDW",(-1312115),(-5616654),1342,"BR");
("SWDY",(-1475406),(-5038114),1175,"BR");
("SWDZ",(-1528846),(-5853387),1181,"BR");
("SWEB",(-1156305),(-5802928),951,"BR");
("SWEC",(-1590154),(-5209663),1017,"BR");
("SWED",(-775911),(-4912678),686,"BR");
("SWEE",(-452714),(-7156512),98,"PE");
("SWEF",(-1480227),(-5115367),899,"BR");
("SWEG",(-1683446),(-5567299),446,"BR");
("SWEH",(-1165978),(-5285286),1083,"BR");
("SWEI",(-662986),(-6988364),412,"BR");
("SWEJ",(-1018284),(-4855052),988,"BR");
("SWEK",(-1356969),(-5227196),1296,"BR");
("SWEL",(-1506278),(-5191754),853,"BR");
("SWEM",(-1462083),(-5400702),1837,"BR");
("SWEN",(-994073),(-5610400),1017,"BR");
("SWEO",21110,(-6155283),262,"BR");
("SWER",(-1547219),(-5606670),801,"BR");
("SWET",(-1331228),(-5879949),558,"BR");
("SWEU",79836,(-6166142),266,"BR");
("SWEW",(-1583598),(-5863451),656,"BO");
("SWEX",(-1684791),(-5446292),1145,"BR");
("SWEY",(-1353640),(-4890543),1197,"BR");
("SWEZ",(-1525733),(-5648286),666,"BR");
("SWFA",(-1622304),(-4762704),3281,"BR");
("SWFC",(-1616845),(-5484680),1191,"BR");
("SWFD",(-1172152),(-5805139),863,"BR");
("SWFE",(-1331885),(-5611383),1345,"BR");
("SWFF",(-1071930),(-5483970),1001,"BR");
("SWFG",(-1202615),(-5167884),1116,"BR");
("SWFH",(-974882),(-4998598),640,"BR");
("SWFJ",(-816988),(-7035333),394,"BR");
("SWFK",(-1507118),(-4824072),2297,"BR");
("SWFL",(-1012230),(-5041724),656,"BR");
("SWFM",(-1817773),(-4821198),2073,"BR");
("SWFN",(-307246),(-6002470),203,"BR");
("SWFO",(-1535098),(-5671316),1037,"BR");
("SWFP",(-1064038),(-5203682),984,"BR");
("SWFQ",(-1040060),(-4868122),943,"BR");
("SWFR",(-1556156),(-4734767),3166,"BR");
("SWFS",(-1353584),(-5493332),1575,"BR");
("SWFT",(-1658070),(-5214790),2822,"BR");
("SWFU",(-1617141),(-5950026),866,"BR");
("SWFV",(-2072128),(-4586723),2569,"BR");
("SWFW",(-1471292),(-5191036),919,"BR");
("SWFX",(-1163043),(-5069591),650,"BR");
("SWFY",(-997040),(-5095473),718,"BR");
("SWFZ",(-998037),(-5667763),820,"BR");
("SWGA",(-1482653),(-6001697),1378,"BR");
("SWGC",(-884906),(-4968921),591,"BR");
("SWGE",(-1700618),(-5648216),344,"BR");
("SWGF",(-928524),(-6462491),295,"BO");
("SWGH",(-1624245),(-5762117),1299,"BO");
("SWGI",(-1173850),(-4914003),1138,"BR");
("SWGK",(-1255894),(-5169268),801,"BR");
("SWGL",(-1839540),(-5210527),2067,"BR");
("SWGM",(-1548907),(-5581858),2464,"BR");
("SWGN",(-723017),(-4824829),771,"BR");
("SWGO",(-1534359),(-4914035),2303,"BR");
("SWGP",(-1683223),(-4987979),1995,"BR");
("SWGQ",(-1478523),(-5735530),755,"BR");
("SWGR",(-1692461),(-5354667),2707,"BR");
("SWGS",(-979251),(-5082495),755,"BR");
("SWGT",(-1719334),(-5021244),1844,"BR");
("SWGU",(-1240274),(-5005795),738,"BR");
("SWGV",(-1280526),(-5261383),1004,"BR");
("SWGW",(-1543503),(-5160319),1047,"BR");
("SWGZ",(-1478438),(-5718950),988,"BR");
("SWHA",(-1464710),(-4981776),1553,"BR");
("SWHE",(-1072970),(-5453596),1352,"BR");
("SWHF",(-1048672),(-4833861),860,"BR");
("SWHG",(-1782404),(-5059384),1591,"BR");
("SWHJ",(-1006140),(-5699149),899,"BR");
("SWHL",(-1527945),(-5512112),2247,"BR");
("SWHM",(-1830948),(-5366425),1345,"BR");
("SWHN",(-1016043),(-5698137),853,"BR");
("SWHO",(-1153408),(-5655466),1017,"BR");
("SWHP",(-1402581),(-5215469),1047,"BR");
("SWHQ",(-1519026),(-5994369),1060,"BR");
("SWHR",(-2186038),(-5218750),919,"BR");
("SWHS",(-1805459),(-5039051),1729,"BR");
("SWHT",(-752950),(-6307643),230,"BR");
("SWHU",(-2250549),(-5087099),1542,"BR");
("SWHY",(-412816),(-4868843),285,"BR");
("SWHZ",(-1033515),(-5596661),1010,"BR");
("SWIA",(-1410054),(-4667265),1854,"BR");
("SWIB",(-1086583),(-5491815),1096,"BR");
("SWID",(-1331076),(-4977851),909,"BR");
("SWIE",(-1391678),(-5001460),984,"BR");
("SWIG",(-1501108),(-5925561),879,"BR");
("SWIH",(-1490961),(-5273109),1355,"BR");
("SWII",(-294447),(-6969441),131,"CO");
("SWIJ",(-1751369),(-5482771),1683,"BR");
("SWIK",(-1492116),(-5128623),935,"BR");
("SWIL",(-1701960),(-5435058),1499,"BR");
("SWIM",(-1612331),(-5167357),1142,"BR");
("SWIN",(-1425196),(-5799431),2188,"BR");
("SWIO",(-1762733),(-5014276),1562,"BR");
("SWIP",(-1769199),(-4816363),2729,"BR");
("SWIQ",(-1355564),(-4820338),1401,"BR");
("SWIU",(-984374),(-6142000),476,"BR");
("SWIV",(-126851),(-5326451),479,"BR");
("SWIW",(-1382295),(-5603989),1398,"BR");
("SWIX",(-1736837),(-5473604),1640,"BR");
("SWIY",(-1157095),(-5067296),647,"BR");
("SWIZ",(-2129300),(-5448369),1519,"BR");
("SWJA",(-1164535),(-5909009),1100,"BR");
("SWJB",(-1474184),(-5813284),1667,"BR");
("SWJC",(-1597513),(-5497194),1197,"BR");
("SWJD",(-1345717),(-4667933),1279,"BR");
("SWJE",(-1639940),(-5233312),2634,"BR");
("SWJF",(-1023013),(-5849768),840,"BR");
("SWJG",(-1448888),(-5743525),1083,"BR");
("SWJJ",(-1504817),(-5750361),755,"BR");
("SWJK",(-1497193),(-5133919),984,"BR");
("SWJL",(-1903915),(-5126268),1345,"BR");
("SWJM",(-1296961),(-4656785),2067,"BR");
("SWJN",(-1149365),(-5888676),1083,"BR");
("SWJO",(-1513786),(-5125803),984,"BR");
("SWJP",(-140094),(-6942827),257,"CO");
("SWJQ",(-2022958),(-5184918),1392,"BR");
("SWJR",(-1194456),(-5451890),1180,"BR");
("SWJS",(-1548437),(-5127402),692,"BR");
("SWJT",(-1150012),(-5262247),1165,"BR");
("SWJU",(-1030112),(-5849543),525,"BR");
("SWJV",(-513159),(-7281322),394,"PE");
("SWJW",(-1782759),(-5177957),2529,"BR");
("SWJX",(-1950447),(-4415770),2762,"BR");
("SWJY",(-1684954),(-5373464),2625,"BR");
("SWJZ",(-1598499),(-5453406),1654,"BR");
("SWKA",(-1559882),(-5125934),951,"BR");
("SWKB",(-914086),(-6744856),699,"BR");
("SWKC",(-1603526),(-5763122),495,"BO");
("SWKE",(-1150540),(-4984545),656,"BR");
("SWKF",(-2073461),(-5170121),1093,"BR");
("SWKG",(-1340156),(-5475488),1623,"BR");
("SWKH",(-1521720),(-5513397),2050,"BR");
("SWKJ",(-1540178),(-5461178),1821,"BR");
("SWKL",(-1255730),(-6199977),590,"BR");
("SWKM",(-1464223),(-5750614),1390,"BR");
("SWKO",(-413410),(-6313968),131,"BR");
("SWKP",(-1523870),(-5928785),866,"BR");
("SWKQ",(-907723),(-4264947),1362,"BR");
("SWKR",(-1867181),(-5158859),1752,"BR");
("SWKT",(-1821115),(-4790250),2612,"BR");
("SWKU",112587,(-6684348),274,"VE");
("SWKV",(-1090449),(-5586176),1096,"BR");
("SWKW",(-2132468),(-5019603),1352,"BR");
("SWKX",(-1637914),(-5831968),394,"BO");
("SWKY",(-2034315),(-4747426),3064,"BR");
("SWKZ",(-1172197),(-5825903),984,"BR");
("SWLA",(-1188592),(-5863610),1030,"BR");
("SWLB",(-727350),(-6476981),190,"BR");
("SWLC",(-1783974),(-5095723),2464,"BR");
("SWLD",(-1488945),(-4534145),2510,"BR");
("SWLE",(-1522730),(-5934281),1148,"BR");
("SWLF",(-1561681),(-5820981),725,"BO");
("SWLG",(-1299644),(-5190659),1335,"BR");
("SWLI",(-1700579),(-5646844),361,"BR");
("SWLK",(-1099514),(-5821599),1164,"BR");
("SWLM",(-1529825),(-6037043),971,"BR");
("SWLN",(-1343522),(-5847488),1837,"BR");
("SWLP",(-997113),(-6123352),535,"BR");
("SWLR",(-1543482),(-5965863),820,"BR");
("SWLT",(-1043603),(-5417126),1197,"BR");
("SWLV",(-1584796),(-5608848),544,"BR");
("SWLX",(-1541185),(-5883057),1214,"BR");
("SWLY",(-2088774),(-5136610),1345,"BR");
("SWMA",(-1183681),(-4626840),2828,"BR");
("SWMB",(-1797402),(-4959017),2165,"BR");
("SWMC",(-2146157),(-4788963),1936,"BR");
("SWME",(-1754673),(-5255785),2707,"BR");
("SWMG",(-1339036),(-4677763),1637,"BR");
("SWMH",(-1553937),(-5102011),895,"BR");
("SWMI",(-2087315),(-5286755),1329,"BR");
("SWMJ",(-1949873),(-5695975),318,"BR");
("SWMK",62616,(-6612011),354,"BR");
("SWML",(-1325294),(-4687397),1821,"BR");
("SWMM",(-930476),(-6067469),432,"BR");
("SWMO",(-1745722),(-5474169),1716,"BR");
("SWMQ",(-1042000),(-6055510),367,"BR");
("SWMR",(-1424793),(-4808710),2067,"BR");
("SWMT",(-1266153),(-5482862),1214,"BR");
("SWMU",(-431515),(-6070489),1640,"BR");
("SWMV",272923,(-6295363),984,"BR");
("SWMW",(-337759),(-5772416),69,"BR");
("SWMX",(-1776581),(-4912467),2789,"BR");
("SWMY",(-1156610),(-5070604),620,"BR");
("SWMZ",(-1644062),(-5470527),1000,"BR");
("SWNA",(-512023),(-6036977),118,"BR");
("SWNB",(-1470954),(-5634150),722,"BR");
("SWNC",(-940464),(-5822827),673,"BR");
("SWNF",(-1089356),(-5556942),1033,"BR");
("SWNG",(-1290019),(-5583527),1279,"BR");
("SWNH",(-1493693),(-5105207),820,"BR");
("SWNI",(-1017611),(-6282955),407,"BR");
("SWNJ",(-1512487),(-5349279),1749,"BR");
("SWNK",(-882736),(-6731304),394,"BR");
("SWNL",(-1518627),(-5770874),493,"BR");
("SWNM",386319,(-5962039),282,"GY");
("SWNN",277572,(-6061868),282,"BR");
("SWNO",(-389080),(-5908254),118,"BR");
("SWNQ",(-1444150),(-4849161),2756,"BR");
("SWNR",(-1447977),(-5677120),1460,"BR");
("SWNS",(-1636725),(-4893399),3642,"BR");
("SWNT",(-1896920),(-5079942),1493,"BR");
("SWNU",(-316399),(-4811045),141,"BR");
("SWNV",(-1662295),(-4935394),2707,"BR");
("SWNW",(-1379542),(-5545803),1525,"BR");
("SWNX",(-1487249),(-5350205),1650,"BR");
("SWOA",(-1653576),(-4940024),2625,"BR");
("SWOB",(-252678),(-6608386),207,"BR");
("SWOC",(-2202306),(-5736687),443,"BR");
("SWOE",(-1617279),(-5819146),688,"BO");
("SWOF",293603,(-6072293),282,"BR");
("SWOG",(-1376484),(-5696356),1469,"BR");
("SWOI",(-1181844),(-5757142),1200,"BR");
("SWOJ",(-1157458),(-5827428),1092,"BR");
("SWOK",(-1730754),(-5393815),2164,"BR");
("SWOL",(-1509745),(-5240397),1351,"BR");
("SWOM",(-1495614),(-5348967),1889,"BR");
("SWOO",(-1507539),(-5139354),1050,"BR");
("SWOP",(-978309),(-5762764),1188,"BR");
("SWOQ",(-1674250),(-4799677),3148,"BR");
("SWOR",(-1545484),(-5122410),896,"BR");
("SWOS",(-1517584),(-4895629),2289,"BR");
("SWOT",(-1393881),(-5889840),2106,"BR");
("SWOV",(-1751028),(-5541182),423,"BR");
("SWOW",(-146514),(-6162165),43,"BR");
("SWOX",(-1576258),(-5649772),619,"BR");
("SWOY",(-1603083),(-5281337),1239,"BR");
("SWOZ",(-1530534),(-5490077),2164,"BR");
("SWPA",(-897449),(-4817606),673,"BR");
("SWPB",(-1241167),(-6442316),591,"BO");
("SWPC",26587,(-6980017),377,"CO");
("SWPD",278123,(-6059018),282,"BR");
("SWPE",(-1013207),(-5559633),866,"BR");
("SWPG",(-1152340),(-5733341),1309,"BR");
("SWPH",(-1522675),(-5213415),978,"BR");
("SWPI",(-267861),(-5678303),87,"BR");
("SWPJ",(-1023401),(-4836248),787,"BR");
("SWPK",(-1626710),(-5665203),591,"BR");
("SWPL",(-1225299),(-5338756),1083,"BR");
("SWPM",(-1164597),(-6118329),682,"BR");
("SWPN",(-1261655),(-4787603),886,"BR");
("SWPO",(-1026969),(-5124143),787,"BR");
("SWPP",(-1475756),(-5066764),1001,"BR");
("SWPQ",(-1085946),(-5168934),705,"BR");
("SWPR",(-1731952),(-4834045),2428,"BR");
("SWPS",(-1297267),(-5618526),1690,"BR");
("SWPT",(-1361289),(-5501468),1706,"BR");
("SWPV",(-1567898),(-4754931),3806,"BR");
("SWPW",(-1697079),(-5641686),377,"BR");
("SWPY",(-1557044),(-5433714),2149,"BR");
("SWPZ",(-1411929),(-4635220),2713,"BR");
("SWQC",(-1749630),(-5159723),3140,"BR");
("SWQE",109517,(-6985113),492,"CO");
("SWQG",(-2145689),(-5542545),1706,"BR");
("SWQH",(-1014763),(-6054454),797,"BR");
("SWQI",(-183600),(-6113842),282,"BR");
("SWQJ",(-1340913),(-5927004),2132,"BR");
("SWQK",(-676980),(-3648356),1781,"BR");
("SWQL",(-1668808),(-5225264),2070,"BR");
("SWQM",(-1509218),(-5637707),688,"BR");
("SWQO",(-1982255),(-5722192),299,"BR");
("SWQP",(-2131159),(-5137292),1148,"BR");
("SWQQ",(-1863205),(-5410339),1391,"BR");
("SWQR",267068,(-6077910),279,"BR");
("SWQS",(-2094593),(-5344085),1424,"BR");
("SWQT",(-985922),(-5823062),738,"BR");
("SWQU",(-1458296),(-6012749),728,"BR");
("SWQV",(-1611358),(-5896995),833,"BO");
("SWQW",(-1004888),(-5682671),1050,"BR");
("SWQX",(-1333149),(-4690444),1578,"BR");
("SWQY",(-268816),(-5236975),384,"BR");
("SWQZ",(-2087665),(-5355730),1509,"BR");
("SWRA",(-1301958),(-4689093),1923,"BR");
("SWRB",(-1482230),(-5695001),1148,"BR");
("SWRC",(-1263027),(-5193555),951,"BR");
("SWRD",(-1659433),(-5472495),1467,"BR");
("SWRF",(-1318778),(-5798498),1644,"BR");
("SWRG",(-1082934),(-6523152),492,"BR");
("SWRI",(-1215721),(-5228447),993,"BR");
("SWRJ",(-1507853),(-5655416),757,"BR");
("SWRL",(-1298148),(-6104968),1086,"BR");
("SWRM",(-1593157),(-4833632),4264,"BR");
("SWRO",(-879918),(-6385806),312,"BR");
("SWRP",(-1024416),(-5938550),623,"BR");
("SWRQ",(-1522176),(-5858786),1033,"BR");
("SWRR",(-1467012),(-5457203),1542,"BR");
("SWRS",(-1693710),(-5490782),1020,"BR");
("SWRT",(-1734290),(-5319564),2346,"BR");
("SWRU",(-1555874),(-5308027),1460,"BR");
("SWRV",(-1216673),(-5653733),1378,"BR");
("SWRW",(-1558252),(-5804676),1115,"BO")].
(** openap/data/nav/airports.csv:10502-11001 *)
Definition apts21 : list apt := [
("SWRX",(-1516103),(-6044677),764,"BR");
("SWRY",(-1573224),(-5747200),1853,"BR");
("SWRZ",(-1434643),(-5671540),1306,"BR");
("SWSA",(-1229474),(-5653326),1476,"BR");
("SWSB",(-1523174),(-5198134),951,"BR");
("SWSC",(-1165280),(-5273739),1083,"BR");
("SWSD",(-1562908),(-5181308),1079,"BR");
("SWSF",(-1521908),(-6021914),863,"BR");
("SWSG",(-1360486),(-5932414),2136,"BR");
("SWSH",(-997092),(-5615384),932,"BR");
("SWSI",(-1189201),(-5558843),1280,"BR");
("SWSK",305527,(-6048774),295,"BR");
("SWSM",(-1537253),(-5768510),525,"BR");
("SWSN",(-1497065),(-5931534),1713,"BR");
("SWSP",(-1373017),(-5473770),1690,"BR");
("SWSQ",170001,(-6939530),541,"CO");
("SWSR",(-1374770),(-5563768),1772,"BR");
("SWSS",(-1616119),(-6011695),863,"BO");
("SWST",(-1046761),(-5052439),663,"BR");
("SWSU",(-1285215),(-5202499),1230,"BR");
("SWSV",(-1438560),(-5138405),837,"BR");
("SWSX",(-1010497),(-6921602),673,"BR");
("SWSY",(-1590628),(-6015936),705,"BO");
("SWSZ",(-976883),(-5806412),741,"BR");
("SWTA",(-1541865),(-5840920),938,"BR");
("SWTB",(-891855),(-6211970),722,"BR");
("SWTC",(-958863),(-4845160),653,"BR");
("SWTD",(-1388216),(-5240687),1066,"BR");
("SWTE",(-1390997),(-5666091),1132,"BR");
("SWTH",(-1023950),(-5825089),883,"BR");
("SWTI",(-1451584),(-5978444),791,"BR");
("SWTJ",(-1460783),(-5779759),1070,"BR");
("SWTK",(-1420232),(-6028686),797,"BR");
("SWTL",(-1250160),(-6128810),1371,"BR");
("SWTN",(-1504631),(-5872878),1345,"BR");
("SWTO",(-1017411),(-4893818),1083,"BR");
("SWTP",(-41768),(-6503965),220,"BR");
("SWTQ",(-1777266),(-4876494),2247,"BR");
("SWTR",12030,(-6854638),246,"BR");
("SWTS",(-1465540),(-5744503),1388,"BR");
("SWTU",(-1347225),(-5886796),1814,"BR");
("SWTV",(-1505828),(-5796967),1354,"BR");
("SWTW",(-1570138),(-5924390),833,"BR");
("SWTX",(-1615016),(-5297241),1201,"BR");
("SWTY",(-1243856),(-4640332),2067,"BR");
("SWUA",(-1333258),(-5020440),1249,"BR");
("SWUB",(-1567530),(-5919619),1115,"BR");
("SWUC",(-1120409),(-5068632),689,"BR");
("SWUE",(-1069970),(-5593940),1197,"BR");
("SWUI",(-772316),(-6703346),397,"BR");
("SWUJ",(-1220136),(-5538053),1230,"BR");
("SWUK",122039,(-6920120),249,"CO");
("SWUL",(-621518),(-4842487),407,"BR");
("SWUM",(-1344343),(-6027660),984,"BR");
("SWUN",(-1017364),(-5757127),886,"BR");
("SWUP",(-1402112),(-5936759),1575,"BR");
("SWUQ",283664,(-6365175),2854,"VE");
("SWUR",(-849661),(-4438929),1946,"BR");
("SWUS",(-1423062),(-5771037),1798,"BR");
("SWUT",(-1422337),(-5777916),2001,"BR");
("SWUU",(-1212930),(-5420194),1148,"BR");
("SWUW",(-1511701),(-5683662),810,"BR");
("SWUZ",(-1626129),(-4797427),3269,"BR");
("SWVB",(-1502068),(-5996685),886,"BR");
("SWVC",(-998291),(-5114680),889,"BR");
("SWVD",(-1797099),(-5258334),2592,"BR");
("SWVE",(-975963),(-6804824),666,"BR");
("SWVF",(-1601345),(-5993228),709,"BR");
("SWVH",(-952233),(-5624296),1149,"BR");
("SWVI",(-1151704),(-4831564),787,"BR");
("SWVJ",(-1366834),(-5600171),1519,"BR");
("SWVK",(-1303261),(-5532744),1411,"BR");
("SWVL",(-1589464),(-5532027),2444,"BR");
("SWVN",(-1362768),(-5979711),2028,"BR");
("SWVO",(-1137362),(-5538196),1017,"BR");
("SWVP",115578,(-5033283),33,"BR");
("SWVR",(-1190349),(-5545934),1460,"BR");
("SWVS",(-1585626),(-6004748),675,"BR");
("SWVT",(-1211874),(-5265106),1050,"BR");
("SWVU",(-2172936),(-5457782),1099,"BR");
("SWVV",(-1575069),(-6010891),692,"BR");
("SWVW",(-2053404),(-4561583),2589,"BR");
("SWVX",(-1024504),(-6014714),597,"BR");
("SWVY",(-1756523),(-5649219),361,"BO");
("SWVZ",(-1474850),(-5635617),2362,"BR");
("SWWA",(-1339985),(-4916301),1201,"BR");
("SWWB",(-1125507),(-5493119),1083,"BR");
("SWWD",(-169237),(-6378939),207,"BR");
("SWWE",(-1596992),(-4671612),3287,"BR");
("SWWF",(-1656489),(-5783268),676,"BO");
("SWWG",(-1855252),(-5038195),1699,"BR");
("SWWH",(-2198724),(-5390439),1099,"BR");
("SWWI",(-1567476),(-5358277),1995,"BR");
("SWWJ",(-1668247),(-5630253),348,"BR");
("SWWK",(-252663),(-5776080),98,"BR");
("SWWL",(-1568274),(-5226895),1119,"BR");
("SWWM",(-1877292),(-4095360),663,"BR");
("SWWN",(-1031811),(-5658010),1201,"BR");
("SWWT",(-1870277),(-4533804),1936,"BR");
("SWWU",(-1453911),(-4909343),1680,"BR");
("SWWV",(-1670309),(-5603078),381,"BR");
("SWWW",(-1668937),(-5617999),367,"BR");
("SWWX",(-1674968),(-5636963),338,"BR");
("SWWY",(-1658761),(-5628373),354,"BR");
("SWWZ",(-411553),(-3825340),13,"BR");
("SWXA",(-1504289),(-5140469),889,"BR");
("SWXC",(-1287991),(-6129838),981,"BR");
("SWXD",(-2155939),(-4880156),1762,"BR");
("SWXE",(-1387415),(-5325020),1161,"BR");
("SWXF",(-1245502),(-4567815),2438,"BR");
("SWXG",(-1200068),(-5340419),997,"BR");
("SWXH",(-1305911),(-4625889),2999,"BR");
("SWXJ",(-1554040),(-5598621),568,"BR");
("SWXK",(-1326806),(-5689324),1240,"BR");
("SWXL",(-1210265),(-4995457),600,"BR");
("SWXM",(-1017695),(-5495307),886,"BR");
("SWXO",(-713609),(-5272810),800,"BR");
("SWXP",(-1372787),(-5889290),1949,"BR");
("SWXQ",(-2165864),(-4973813),1575,"BR");
("SWXR",(-1564676),(-5877639),787,"BR");
("SWXS",(-1579340),(-5963617),951,"BR");
("SWXT",(-1610516),(-6006604),853,"BO");
("SWXU",(-1065966),(-6848764),492,"BR");
("SWXV",(-1469644),(-5234997),1033,"BR");
("SWXW",(-1596818),(-5989175),722,"BR");
("SWXY",(-1035623),(-5067086),869,"BR");
("SWXZ",(-1330918),(-6029650),899,"BR");
("SWYA",(-1604732),(-5495183),1082,"BR");
("SWYC",(-1568428),(-5811557),849,"BO");
("SWYG",(-1962007),(-4020429),187,"BR");
("SWYH",(-1528899),(-5831537),984,"BR");
("SWYI",(-1155606),(-4698302),2067,"BR");
("SWYJ",(-762610),(-5607067),860,"BR");
("SWYK",(-1706863),(-5658651),358,"BR");
("SWYM",(-1463961),(-5945359),951,"BR");
("SWYN",(-717486),(-5984464),525,"BR");
("SWYO",(-2149120),(-5102642),1335,"BR");
("SWYP",(-1394843),(-5577964),1493,"BR");
("SWYQ",(-1147393),(-5643566),1135,"BR");
("SWYR",(-1534242),(-5879762),1001,"BR");
("SWYT",(-1001313),(-4768624),1132,"BR");
("SWYU",(-1444866),(-5086866),781,"BR");
("SWYV",(-1826183),(-4891111),1476,"BR");
("SWYW",(-1683833),(-5383775),2241,"BR");
("SWYY",(-1488316),(-5227947),994,"BR");
("SWZA",(-1136040),(-5811903),984,"BR");
("SWZB",(-1699866),(-5646121),459,"BR");
("SWZC",(-1624692),(-5889876),492,"BO");
("SWZD",(-1725988),(-5014225),1699,"BR");
("SWZE",(-1506019),(-5937834),1099,"BR");
("SWZF",(-1549614),(-5840486),902,"BO");
("SWZG",(-1601726),(-5889425),800,"BO");
("SWZH",(-1757683),(-5017822),1918,"BR");
("SWZJ",(-1454719),(-5065733),1033,"BR");
("SWZL",(-1814779),(-4171813),1106,"BR");
("SWZM",(-1898684),(-5057204),1716,"BR");
("SWZN",(-1732512),(-5042637),2210,"BR");
("SWZO",(-1534059),(-5514153),2165,"BR");
("SWZP",(-1638501),(-5420588),1050,"BR");
("SWZQ",(-1584526),(-5007756),1344,"BR");
("SWZR",(-1538104),(-5103622),965,"BR");
("SWZS",(-1666369),(-5767036),787,"BO");
("SWZT",(-1926021),(-4447407),2451,"BR");
("SWZU",(-2247018),(-5259988),1001,"BR");
("SWZV",(-2185867),(-5677481),1001,"BR");
("SWZW",(-1032454),(-5221354),1036,"BR");
("SWZY",(-1157353),(-5823592),984,"BR");
("SYAH",(-247686),(-5932295),587,"BR");
("SYAN",(-396221),(-5912733),302,"BR");
("SYAP",(-401762),(-5860846),302,"BR");
("SYAW",(-265106),(-5920390),797,"BR");
("SYCJ",649190,(-5826081),95,"GY");
("SYEB",561489,(-5777332),148,"GY");
("SYIB",(-572048),(-6028702),1647,"BR");
("SYKK",(-472055),(-5998589),3199,"BR");
("SYKR",(-375512),(-5931457),299,"BR");
("SYKT",(-465140),(-5983697),2300,"BR");
("SYLD",596604,(-5827726),180,"GY");
("SYLP",(-239963),(-5943855),548,"BR");
("SYLT",336839,(-5979639),351,"GY");
("SYMD",(-527302),(-5915317),272,"BR");
("SYMP",(-300223),(-5963808),397,"BR");
("SYOR",(-472989),(-6003605),1798,"BR");
("TAPA",1713024,(-6180367),62,"AG");
("TAPH",1761517,(-6183476),13,"AG");
("TAPT",1755276,(-6177234),13,"AG");
("TBPB",1307062,(-5950847),168,"BB");
("TDCF",1533241,(-6139193),13,"DM");
("TDPD",1554433,(-6130764),73,"DM");
("TFFA",1629933,(-6108196),9,"GP");
("TFFB",1601961,(-6174699),55,"GP");
("TFFC",1625579,(-6126714),9,"GP");
("TFFF",1458867,(-6101691),16,"MQ");
("TFFG",1810152,(-6305256),6,"MF");
("TFFJ",1790436,(-6284663),0,"BL");
("TFFM",1586761,(-6127582),16,"GP");
("TFFR",1626830,(-6154794),35,"GP");
("TFFS",1586493,(-6158329),9,"GP");
("TGPY",1200430,(-6179882),41,"GD");
("TGPZ",1247634,(-6147586),5,"GD");
("TIST",1833687,(-6498343),23,"VI");
("TISX",1770006,(-6481623),65,"VI");
("TJAB",1844794,(-6668058),23,"PR");
("TJBQ",1848995,(-6714536),237,"PR");
("TJCP",1831502,(-6530761),49,"PR");
("TJFA",1830696,(-6566666),64,"PR");
("TJIG",1845584,(-6610640),10,"PR");
("TJMZ",1825404,(-6715546),28,"PR");
("TJPS",1801124,(-6657247),29,"PR");
("TJRV",1823630,(-6565632),38,"PR");
("TJSJ",1843876,(-6601486),9,"PR");
("TJVQ",1813345,(-6549964),49,"PR");
("TKPK",1730550,(-6272783),170,"KN");
("TKPN",1720562,(-6259560),14,"KN");
("TLPC",1401772,(-6100122),22,"LC");
("TLPL",1373320,(-6096526),14,"LC");
("TNCA",1250439,(-7002747),60,"AW");
("TNCB",1213144,(-6828175),20,"BQ");
("TNCC",1219211,(-6897514),29,"CW");
("TNCE",1749270,(-6298417),129,"BQ");
("TNCM",1803937,(-6311961),12,"MF");
("TNCS",1764541,(-6322312),105,"BQ");
("TQPF",1820488,(-6306172),127,"AI");
("TRPG",1679134,(-6219612),551,"MS");
("TTCP",1115056,(-6084472),36,"TT");
("TTPP",1059533,(-6135186),57,"TT");
("TUPA",1873632,(-6432937),9,"VG");
("TUPJ",1844238,(-6454743),15,"VG");
("TUPW",1844676,(-6443381),9,"VG");
("TVSB",1298963,(-6126696),14,"VC");
("TVSC",1270330,(-6134944),16,"GD");
("TVSM",1288652,(-6118449),8,"VC");
("TVSU",1259699,(-6141824),16,"GD");
("TVSV",1314123,(-6121650),66,"VC");
("TXKF",3236669,(-6469410),12,"BM");
("UAAA",4334096,7701807,2234,"KZ");
("UAAH",4688732,7499170,1446,"KZ");
("UACC",5101097,7144957,1165,"KZ");
("UACP",5477024,6916635,452,"KZ");
("UADD",4286309,7129158,2184,"KZ");
("UAFC",4144357,7611392,6935,"KG");
("UAFL",4258500,7670167,5423,"KG");
("UAFM",4305802,7445216,2058,"KG");
("UAFN",4273381,8019422,5902,"CN");
("UAFO",4061500,7278167,2927,"KG");
("UAFP",4254375,7839836,5509,"KG");
("UAFW",4285844,7483107,2549,"KG");
("UAII",4236776,6946280,1385,"KZ");
("UAKD",4770151,6772562,1250,"KZ");
("UAKK",4966304,7331507,1765,"KZ");
("UAOL",4561410,6319314,299,"KZ");
("UAON",4604420,6322287,328,"KZ");
("UARR",5114424,5152795,125,"KZ");
("UASK",5004394,8248089,939,"KZ");
("UASP",5218667,7706167,410,"KZ");
("UASS",5034978,8021274,761,"KZ");
("UATE",4386762,5107690,73,"KZ");
("UATG",4713361,5181139,(-72),"KZ");
("UATT",5025549,5719181,738,"KZ");
("UAUU",5321667,6354333,595,"KZ");
("UBBB",4048667,5006333,10,"AZ");
("UBBG",4074464,4630592,1083,"AZ");
("UBBN",3919899,4544556,2863,"AZ");
("UDLS",4105431,4432816,4836,"AM");
("UDSG",4073715,4385171,5000,"AM");
("UDYA",3997371,4699520,961,"AZ");
("UDYE",4011150,4445630,2948,"AM");
("UDYZ",4014715,4437329,2838,"AM");
("UEBB",6764770,13469358,734,"RU");
("UEBN",7143813,13617535,49,"RU");
("UEBS",6779594,13036316,1646,"RU");
("UEBT",7000626,13562521,262,"RU");
("UEBW",6753787,13338958,475,"RU");
("UEEA",5859960,12540189,2240,"RU");
("UEEE",6208269,12975350,325,"RU");
("UELL",5690811,12488624,2813,"RU");
("UEMA",6645779,14325073,649,"RU");
("UEMH",6278657,13684002,908,"RU");
("UEMJ",6324526,14315325,2454,"RU");
("UEMM",6212146,12958083,623,"RU");
("UEMO",6039709,12045329,751,"RU");
("UEMS",6396275,12740920,157,"RU");
("UEMT",6454621,14308933,1738,"RU");
("UEMU",6035071,13442345,551,"RU");
("UENI",6345770,12025038,377,"RU");
("UENK",6389285,12277291,362,"RU");
("UENN",6329215,11831665,406,"RU");
("UENS",6219345,11762810,442,"RU");
("UENW",6375910,12167595,360,"RU");
("UERA",6597034,11153797,2066,"RU");
("UERD",5946166,11153360,902,"RU");
("UERL",6071794,11480842,835,"RU");
("UERO",6852504,11247841,639,"RU");
("UERP",6641372,11202061,1660,"RU");
("UERR",6252768,11401652,1156,"RU");
("UERS",7193593,11407725,29,"RU");
("UERT",5946039,11256082,590,"RU");
("UESG",6854195,14621940,82,"RU");
("UESK",6746089,15369638,49,"RU");
("UESO",7062119,14787280,65,"RU");
("UESS",6874463,16132407,22,"RU");
("UEST",7168434,12889729,26,"RU");
("UESU",6574969,15087797,134,"RU");
("UEVV",6680290,12335642,291,"RU");
("UEWD",6939213,13986360,941,"RU");
("UGKO",4217482,4246768,223,"GE");
("UGSB",4161622,4159016,105,"GE");
("UGTB",4167782,4494011,1624,"GE");
("UHBB",5043781,12740845,638,"CN");
("UHHH",4851468,13517276,244,"RU");
("UHMA",6471979,17773219,194,"RU");
("UHMD",6434746,(-17324202),71,"RU");
("UHMM",5991186,15068961,574,"RU");
("UHMP",6979419,17058969,11,"RU");
("UHPA",6056328,16910035,10,"RU");
("UHPK",5623069,16268591,200,"RU");
("UHPL",5908491,15987742,112,"RU");
("UHPM",5467215,15852648,410,"RU");
("UHPO",5608475,15987123,331,"RU");
("UHPP",5318419,15844403,131,"RU");
("UHPT",6037750,16602071,7,"RU");
("UHPX",5517483,16604478,49,"RU");
("UHPY",5631579,16079258,499,"RU");
("UHSB",4492704,14761121,79,"JP");
("UHSS",4687036,14271727,59,"RU");
("UHWW",4339134,13212912,46,"RU");
("UIAA",5203035,11328554,2272,"RU");
("UIAE",5004148,11805469,2122,"RU");
("UIAN",5200159,11653916,1564,"RU");
("UIAR",5690862,11825996,2329,"RU");
("UIBB",5637351,10169280,1610,"RU");
("UIBV",5648828,10409260,1916,"RU");
("UIIB",5292984,10355798,1499,"RU");
("UIII",5227217,10437436,1675,"RU");
("UIIN",5167817,10214666,2460,"RU");
("UIIO",5283182,10471931,1771,"RU");
("UIIR",5235935,10419566,1417,"RU");
("UIKB",5786019,11422781,793,"RU");
("UIKE",6126944,10801739,1000,"RU");
("UIKK",5777008,10804206,833,"RU");
("UIKM",5831955,11288312,658,"RU");
("UINN",5489297,9906091,1338,"RU");
("UITK",5627372,10756013,1148,"RU");
("UITT",5686187,10571502,2188,"RU");
("UIUB",5436489,11346740,3077,"RU");
("UIUN",5579066,10958712,1512,"RU");
("UIUU",5180498,10741650,1690,"RU");
("UKBB",5035209,3088168,421,"UA");
("UKCC",4807480,3769876,791,"UA");
("UKCM",4706534,3744347,251,"UA");
("UKCW",4841977,3935500,636,"UA");
("UKDD",4835722,3508126,481,"UA");
("UKDE",4785666,3530911,373,"UA");
("UKDR",4805444,3321167,408,"UA");
("UKFF",4503621,3396795,639,"UA");
("UKFI",4508233,3359030,52,"UA");
("UKFK",4537067,3639267,152,"UA");
("UKHH",4992545,3627350,507,"UA");
("UKHP",4957060,3437662,0,"UA");
("UKKE",4942524,3198660,375,"UA");
("UKKK",5040113,3043699,586,"UA");
("UKKM",5061769,3018128,517,"UA");
("UKLI",4888667,2467000,919,"UA");
("UKLL",4982083,2394389,1071,"UA");
("UKLN",4826822,2597402,826,"UA");
("UKLR",5061271,2612536,755,"UA");
("UKLT",4952643,2568688,1072,"UA");
("UKLU",4863640,2224988,383,"UA");
("UKOH",4457188,3339401,39,"UA");
("UKON",4705063,3190674,184,"UA");
("UKOO",4643878,3067126,172,"UA");
("ULAA",6460156,4069073,62,"RU");
("ULLI",5979994,3021829,78,"RU");
("ULMM",6879098,3273363,266,"RU");
("ULOO",5777538,2839041,154,"RU");
("ULPB",6187484,3414536,151,"RU");
("UMBB",5211307,2387885,468,"BY");
("UMGG",5253112,3099878,472,"BY");
("UMII",5512100,3033160,683,"BY");
("UMKK",5488548,2057484,42,"RU");
("UMMA",5308508,2603091,615,"BY");
("UMMG",5359700,2404302,442,"BY");
("UMMM",5386966,2752733,748,"BY");
("UMMS",5389487,2801253,669,"BY");
("UMNB",5310337,2922619,502,"BY");
("UMOO",5396378,3008097,636,"BY");
("UNAA",5372676,9137467,831,"RU");
("UNBB",5335881,8351876,838,"RU");
("UNCC",5508425,8290273,558,"RU");
("UNEE",5526157,8608695,863,"RU");
("UNKL",5617948,9246587,942,"RU");
("UNNE",5507937,8300174,665,"RU");
("UNNT",5501010,8262276,365,"RU");
("UNOF",5508163,7297954,312,"RU");
("UNOO",5496450,7329145,312,"RU");
("UNOS",5496580,7353243,311,"RU");
("UODD",7351690,8035550,42,"RU");
("UOHH",7197287,10245474,95,"RU");
("UOII",6744492,8660433,82,"RU");
("UOOO",6929799,8730895,595,"RU");
("URKA",4499425,3733666,173,"RU");
("URKK",4502603,3917337,118,"RU");
("URML",4282643,4764295,12,"RU");
("URMM",4423442,4306126,1054,"RU");
("URMN",4350825,4362443,1462,"RU");
("URMO",4320780,4458858,1673,"RU");
("URMT",4510641,4209657,1486,"RU");
("URRR",4724976,3980699,280,"RU");
("URSS",4343949,3992589,89,"RU");
("URWA",4628451,4799015,(-65),"RU");
("URWI",4637583,4431707,501,"RU");
("URWW",4878810,4433101,482,"RU");
("USCC",5530921,6147889,769,"RU");
("USCM",5337912,5874883,1431,"RU");
("USDD",6658492,6658414,219,"RU");
("USHH",6102531,6906101,141,"RU");
("USKK",5859317,4974447,489,"RU");
("USNN",6093872,7646381,177,"RU");
("USPP",5790452,5600177,404,"RU");
("USRK",6220150,7453796,220,"RU");
("USRR",6134364,7337581,200,"RU");
("USSS",5674241,6077906,764,"RU");
("USTL",5714744,6547344,321,"RU");
("USTR",5716920,6528125,377,"RU");
("UTAA",3800024,5834314,692,"TM");
("UTAK",4007444,5300389,279,"TM");
("UTAM",3763278,6189722,728,"TM");
("UTAT",4176131,5982531,272,"TM");
("UTAV",3909444,6360667,630,"TM");
("UTDD",3854350,6880684,2575,"TJ");
("UTDK",3797500,6980167,2293,"TJ");
("UTDL",4021345,6967617,1450,"TJ");
("UTNU",4159452,6063003,320,"UZ");
("UTOD",3750978,7150928,6700,"TJ");
("UTSB",3976167,6448000,751,"UZ");
("UTSL",3883107,6590744,1365,"UZ");
("UTSS",3970193,6696577,2224,"UZ");
("UTST",3728333,6729333,1027,"UZ");
("UTTT",4125244,6925809,1417,"UZ");
("UUBP",5322485,3417377,663,"RU");
("UUBS",5474411,3205206,0,"RU");
("UUDD",5542328,3790800,588,"RU");
("UUDL",5755462,4013490,305,"RU");
("UUEE",5596710,3738629,622,"RU");
("UUEM",5682182,3573792,469,"RU");
("UUMO",5550679,3748765,561,"RU");
("UUMS",5520492,3867464,419,"RU");
("UUOB",5064969,3657466,734,"RU");
("UUOK",5175689,3628058,686,"RU");
("UUOO",5182095,3921699,514,"RU");
("UUWW",5558655,3725764,685,"RU");
("UUYY",6163657,5083632,342,"RU");
("UWGG",5624200,4378666,256,"RU");
("UWKD",5561873,4925245,411,"RU");
("UWKE",5555706,5207809,643,"RU");
("UWKS",5608678,4732806,560,"RU");
("UWLW",5438176,4878245,252,"RU");
("UWOO",5179576,5543859,387,"RU");
("UWOR",5106950,5857538,909,"RU");
("UWSS",5157167,4603333,499,"RU");
("UWUU",5457327,5584977,449,"RU");
("UWWW",5351857,5016902,477,"RU");
("VAAH",2306600,7262265,189,"IN");
("VAAK",2070032,7705295,999,"IN");
("VAAU",1986235,7538690,1911,"IN");
("VABB",1908842,7284799,37,"IN");
("VABI",2199519,8210946,899,"IN");
("VABJ",2327985,6966147,268,"IN");
("VABM",1585800,7461028,2487,"IN");
("VABO",2232821,7321796,129,"IN");
("VABP",2329138,7732399,1719,"IN");
("VABV",2174896,7217716,44,"IN");
("VADN",2042297,7283750,33,"IN");
("VADS",2426520,7220051,485,"IN");
("VAGN",2465787,7734453,1600,"IN");
("VAGO",1537780,7381710,183,"IN");
("VAHB",1536076,7507712,2171,"IN");
("VAID",2271745,7579103,1850,"IN");
("VAJB",2317314,8004377,1624,"IN");
("VAJM",2245730,6999641,69,"IN");
("VAKE",2310830,7009459,96,"IN");
("VAKJ",2480721,7991599,728,"IN");
("VAKP",1666251,7428333,1996,"IN");
("VAKS",2131308,7026528,167,"IN");
("VANP",2110902,7903383,1033,"IN");
("VANR",1996396,7380112,1959,"IN");
("VAPO",1858289,7390627,1942,"IN");
("VAPR",2164849,6965059,23,"IN");
("VARG",1700909,7332339,305,"IN");
("VARK",2230353,7077301,441,"IN");
("VARP",2117578,8173076,1041,"IN");
("VASL",1763301,7593117,1584,"IN");
("VASU",2111044,7273821,16,"IN");
("VAUD",2461622,7388494,1684,"IN");
("VCBI",716874,7987491,30,"LK");
("VCCA",829684,8042302,324,"LK");
("VCCB",770338,8167442,20,"LK");
("VCCC",681507,7988166,22,"LK");
("VCCG",733499,8162139,150,"LK");
("VCCJ",978510,8006265,33,"LK")].
(** openap/data/nav/airports.csv:11002-11501 *)
Definition apts22 : list apt := [
("VCCK",599217,8031620,10,"LK");
("VCCN",655353,7997329,10,"LK");
("VCCT",853300,8117251,6,"LK");
("VCCW",625249,8123004,50,"LK");
("VDBG",1309301,10321763,59,"KH");
("VDKH",1226608,10456433,56,"KH");
("VDPP",1153713,10483433,40,"KH");
("VDSR",1340295,10380408,60,"KH");
("VDST",1352604,10601243,203,"KH");
("VDSV",1057398,10363408,33,"KH");
("VEAN",2817457,9480089,900,"IN");
("VEAT",2389726,9124126,46,"IN");
("VEAZ",2374148,9280204,1001,"IN");
("VEBD",2669356,8832892,412,"IN");
("VEBI",2569726,9197296,2910,"IN");
("VEBK",2364827,8614287,715,"IN");
("VEBS",2025724,8580784,138,"IN");
("VECA",2745423,9510706,367,"IN");
("VECC",2264219,8844631,16,"IN");
("VECO",2632707,8946346,138,"IN");
("VEDB",2383319,8642009,847,"IN");
("VEDX",2235182,8721275,200,"IN");
("VEGK",2674456,8343703,259,"IN");
("VEGT",2609467,9158063,162,"IN");
("VEGY",2474675,8494022,380,"IN");
("VEHK",2158457,8400249,658,"IN");
("VEIM",2474976,9388899,2540,"IN");
("VEJH",2190958,8404212,751,"IN");
("VEJS",2281232,8616298,505,"IN");
("VEJT",2672265,9416585,311,"IN");
("VEKR",2430414,9200494,79,"IN");
("VEKU",2490844,9297116,352,"IN");
("VELP",2385179,9261790,1398,"IN");
("VELR",2728791,9408983,330,"IN");
("VEMN",2747803,9501031,362,"IN");
("VEMR",2588876,9376150,487,"IN");
("VEMZ",2612048,8530778,174,"IN");
("VENP",2086536,8251945,1058,"IN");
("VEPH",2348501,8742069,240,"IN");
("VEPT",2558806,8507894,170,"IN");
("VEPU",2575956,8739679,129,"IN");
("VERC",2332253,8531160,2148,"IN");
("VERK",2225654,8480572,659,"IN");
("VETZ",2670029,9277507,240,"IN");
("VEUK",2009389,8318153,680,"IN");
("VEVZ",1771561,8321810,15,"IN");
("VEZO",2759376,9382842,5403,"IN");
("VGBR",2280924,9030022,23,"BD");
("VGCB",2146134,9196204,12,"BD");
("VGEG",2224081,9180265,12,"BD");
("VGIS",2415835,8904635,45,"BD");
("VGJR",2319383,8915633,20,"BD");
("VGRJ",2444533,8861496,64,"BD");
("VGSD",2576696,8890569,125,"BD");
("VGSY",2496834,9185362,50,"BD");
("VGTJ",2379113,9037895,24,"BD");
("VGZR",2385502,9038854,30,"BD");
("VHHH",2231048,11389639,28,"HK");
("VHSK",2243969,11407177,50,"HK");
("VIAG",2714942,7795150,551,"IN");
("VIAL",2544356,8172607,322,"IN");
("VIAM",3037826,7680230,909,"IN");
("VIAR",3172330,7479064,756,"IN");
("VIAW",3388470,7496134,5393,"IN");
("VIAX",3144217,7574824,775,"IN");
("VIBK",2806174,7319727,750,"IN");
("VIBL",2698882,8087932,385,"IN");
("VIBN",2545292,8284860,266,"IN");
("VIBR",3188144,7715221,3573,"IN");
("VIBT",3027838,7474474,662,"IN");
("VIBW",2883936,7617430,720,"IN");
("VIBY",2842669,7943790,580,"IN");
("VICG",3067852,7677547,1012,"IN");
("VICX",2640414,8040014,405,"IN");
("VIDD",2858809,7720005,705,"IN");
("VIDF",2959838,8023506,4910,"IN");
("VIDN",3018879,7817453,1831,"IN");
("VIDP",2856717,7708483,777,"IN");
("VIDX",2870778,7734488,700,"IN");
("VIGG",3217047,7625941,2525,"IN");
("VIGR",2628731,7821580,617,"IN");
("VIHR",2918222,7574993,700,"IN");
("VIHX",3075665,7561899,790,"IN");
("VIJN",2549531,7855538,801,"IN");
("VIJO",2624231,7303919,717,"IN");
("VIJP",2682287,7579816,1263,"IN");
("VIJR",2687957,7085560,751,"IN");
("VIJU",3269838,7483683,1029,"IN");
("VIKA",2644253,8035936,411,"IN");
("VIKO",2515887,7583965,896,"IN");
("VILD",3085786,7594591,834,"IN");
("VILH",3413133,7753261,10682,"IN");
("VILK",2676041,8087554,410,"IN");
("VIPK",3222146,7563226,1017,"IN");
("VIPL",3031934,7636134,820,"IN");
("VIPT",2903414,7946813,769,"IN");
("VIRB",2624844,8137188,360,"IN");
("VISA",2955314,7499480,650,"IN");
("VISM",3108640,7706437,5072,"IN");
("VISP",2999388,7741113,891,"IN");
("VISR",3399899,7476071,5429,"IN");
("VIST",2456381,8084996,1060,"IN");
("VIUT",2580140,7147754,500,"IN");
("VIUX",3291456,7515591,2066,"IN");
("VLHS",2026411,10043425,1380,"LA");
("VLLB",1989247,10215163,955,"LA");
("VLLN",2104056,10147000,1968,"LA");
("VLPS",1513821,10577729,351,"LA");
("VLPV",1945808,10321528,3628,"LA");
("VLSK",1655089,10475468,509,"LA");
("VLSN",2041716,10406131,3281,"LA");
("VLVT",1799797,10255325,1850,"TH");
("VMMC",2216233,11358613,20,"MO");
("VNBG",2953710,8118036,3996,"NP");
("VNBJ",2714945,8705065,3969,"NP");
("VNBL",2821038,8366443,3320,"NP");
("VNBP",2768160,8442540,1968,"NP");
("VNBR",2950294,8166549,4300,"NP");
("VNBT",2945763,8053803,0,"NP");
("VNBW",2750674,8340871,354,"NP");
("VNCG",2657199,8807157,315,"NP");
("VNDG",2810906,8227440,2100,"NP");
("VNDH",2875517,8057475,690,"NP");
("VNDL",2966740,8054511,2132,"NP");
("VNDP",2898421,8281973,8199,"NP");
("VNDT",2926354,8093463,0,"NP");
("VNGK",2803421,8446466,1394,"NP");
("VNJI",2762960,8622953,6085,"NP");
("VNJL",2928333,8218648,7700,"NP");
("VNJP",2670876,8591732,256,"NP");
("VNJS",2877853,8371992,8880,"NP");
("VNKG",2718074,8676978,4432,"NP");
("VNKT",2768381,8535342,4390,"NP");
("VNLD",2725227,8667007,4048,"NP");
("VNLK",2768514,8672545,9100,"NP");
("VNLT",2820053,8558384,13530,"CN");
("VNMA",2864213,8408507,11115,"NP");
("VNMG",2757604,8422371,0,"NP");
("VNMN",2896464,8014544,650,"IN");
("VNNG",2810257,8165945,540,"NP");
("VNPK",2819584,8397744,2712,"NP");
("VNPL",2751508,8658405,8054,"NP");
("VNRB",2651147,8672998,250,"NP");
("VNRC",2739095,8605935,5511,"NP");
("VNRK",2862544,8219284,2500,"NP");
("VNRT",2730497,8655066,4501,"NP");
("VNSB",2781319,8670814,12500,"NP");
("VNSI",2715422,8497889,450,"NP");
("VNSK",2858054,8163409,2230,"NP");
("VNSR",2923498,8121435,2280,"NP");
("VNST",2997167,8180914,9246,"CN");
("VNTJ",2735022,8769336,7939,"NP");
("VNTP",2851913,8111915,515,"NP");
("VNTR",2732024,8719158,4297,"NP");
("VNVT",2648172,8725652,246,"NP");
("VOAR",1306164,7967500,265,"IN");
("VOAT",1081890,7217261,14,"IN");
("VOBG",1294882,7765554,2912,"IN");
("VOBI",1516551,7687846,30,"IN");
("VOBR",1789697,7748343,2178,"IN");
("VOBZ",1652889,8078883,82,"IN");
("VOCB",1102189,7703489,1324,"IN");
("VOCC",995543,7627119,8,"IN");
("VOCI",1015143,7638641,30,"IN");
("VOCL",1113931,7594244,342,"IN");
("VOCP",1451149,7876811,430,"IN");
("VOCX",914106,9281534,5,"IN");
("VODG",1763139,7839016,2013,"IN");
("VOHK",1755248,7851268,2020,"IN");
("VOHY",1745295,7845389,1742,"IN");
("VOMD",983396,7808506,459,"IN");
("VOML",1296147,7488351,337,"IN");
("VOMM",1298414,8015295,52,"IN");
("VONS",1654240,7931151,658,"IN");
("VOPB",1162924,9272083,14,"IN");
("VOPC",1196672,7980487,118,"IN");
("VOPN",1414976,7778083,1558,"IN");
("VORY",1710571,8181162,151,"IN");
("VOSM",1177657,7806095,1008,"IN");
("VOSX",1100609,7715102,1250,"IN");
("VOTJ",1071945,7909461,253,"IN");
("VOTP",1363096,7953280,350,"IN");
("VOTR",1076518,7870727,288,"IN");
("VOTV",849315,7690936,15,"IN");
("VOTX",1290995,8011689,90,"IN");
("VOYK",1313562,7759591,3045,"IN");
("VQPR",2741091,8941972,7332,"BT");
("VRMG",(-69153),7314384,6,"MV");
("VRMH",673930,7316799,4,"MV");
("VRMK",185425,7351961,4,"MV");
("VRMM",420629,7352889,6,"MV");
("VRMT",49321,7299474,2,"MV");
("VTBC",1263617,10202599,112,"TH");
("VTBD",1389706,10059600,9,"TH");
("VTBE",1451380,10091743,60,"TH");
("VTBG",1412993,9945303,200,"TH");
("VTBH",1494576,10063689,95,"TH");
("VTBI",1408224,10137927,80,"TH");
("VTBK",1409118,9991095,30,"TH");
("VTBL",1488390,10065993,98,"TH");
("VTBN",1241746,9986633,74,"TH");
("VTBO",1227024,10231332,85,"TH");
("VTBP",1178517,9978992,10,"TH");
("VTBR",1357751,9975322,50,"TH");
("VTBS",1365633,10075173,5,"TH");
("VTBT",1323026,10095410,72,"TH");
("VTBU",1269583,10100635,59,"TH");
("VTBV",1225387,10251522,10,"TH");
("VTBW",1376443,10231017,200,"TH");
("VTBZ",1477149,10065039,65,"TH");
("VTCA",2018970,10040508,1175,"TH");
("VTCB",1949153,10028555,1275,"TH");
("VTCC",1878087,9896270,1036,"TH");
("VTCD",1929193,10085672,865,"TH");
("VTCH",1930425,9796682,929,"TH");
("VTCI",1937521,9843706,1679,"TH");
("VTCK",1882319,9793001,2000,"TH");
("VTCL",1827979,9950351,811,"TH");
("VTCM",1867642,9910176,990,"TH");
("VTCN",1879951,10078009,685,"TH");
("VTCO",1855483,9901393,955,"TH");
("VTCP",1812539,10016397,538,"TH");
("VTCR",1989270,9982702,1312,"TH");
("VTCS",1817709,9793023,732,"TH");
("VTCT",1994049,9987597,1280,"TH");
("VTCY",1867960,9911074,988,"TH");
("VTPB",1668552,10119512,450,"TH");
("VTPH",1264514,9994816,62,"TH");
("VTPI",1529092,10029618,107,"TH");
("VTPL",1681988,10125075,500,"TH");
("VTPM",1669975,9853797,690,"TH");
("VTPN",1566929,10013170,113,"TH");
("VTPO",1724748,9981836,179,"TH");
("VTPP",1679389,10027083,145,"TH");
("VTPR",1366249,9972653,100,"TH");
("VTPS",1682702,10053798,212,"TH");
("VTPT",1689602,9924631,478,"TH");
("VTPU",1767801,10024022,265,"TH");
("VTPY",1722961,9905269,492,"TH");
("VTSA",666641,10007977,18,"TH");
("VTSB",912283,9912603,20,"TH");
("VTSC",651161,10173980,18,"TH");
("VTSD",1050425,9908280,100,"TH");
("VTSE",1070645,9935337,18,"TH");
("VTSF",853014,9994373,13,"TH");
("VTSG",810647,9898012,82,"TH");
("VTSH",719128,10060324,12,"TH");
("VTSK",678503,10114724,8,"TH");
("VTSM",955721,10006155,64,"TH");
("VTSN",848149,9995436,44,"TH");
("VTSP",811189,9830327,82,"TH");
("VTSR",976934,9858181,57,"TH");
("VTSS",693083,10037930,90,"TH");
("VTST",750724,9960717,67,"TH");
("VTSW",802000,9840129,50,"TH");
("VTSY",652416,10124487,92,"TH");
("VTUC",1576725,10194430,650,"TH");
("VTUD",1739270,10277546,579,"TH");
("VTUE",1697515,10397193,960,"TH");
("VTUF",1696199,10396752,945,"TH");
("VTUG",1636720,10216314,705,"TH");
("VTUH",1460275,10157293,1550,"TH");
("VTUI",1718682,10410997,529,"TH");
("VTUJ",1486136,10349732,478,"TH");
("VTUK",1645505,10277591,670,"TH");
("VTUL",1743003,10171919,860,"TH");
("VTUM",1786358,10273141,540,"TH");
("VTUN",1492812,10206641,729,"TH");
("VTUO",1522175,10324759,590,"TH");
("VTUQ",1494494,10230417,765,"TH");
("VTUR",1607453,10364488,459,"TH");
("VTUT",1615363,10458973,524,"TH");
("VTUU",1524282,10485929,406,"TH");
("VTUV",1612626,10377422,451,"TH");
("VTUW",1739304,10463623,587,"TH");
("VVBM",1266853,10810647,1729,"VN");
("VVCA",1541754,10869374,10,"VN");
("VVCI",2081608,10671399,6,"VN");
("VVCR",1198509,10921482,40,"VN");
("VVCS",873476,10662475,20,"VN");
("VVCT",1007969,10570243,9,"VN");
("VVDB",2140504,10300193,1611,"VN");
("VVDN",1605768,10819841,33,"VN");
("VVGL",2103274,10588205,50,"VN");
("VVKP",2139074,10625127,55,"VN");
("VVNB",2122470,10578635,39,"VN");
("VVNT",1223181,10918452,20,"VN");
("VVPB",1640217,10769000,48,"VN");
("VVPC",1396651,10903451,80,"VN");
("VVPK",1400467,10800875,2434,"VN");
("VVPQ",1022524,10395774,23,"VN");
("VVPR",1162406,10894162,101,"VN");
("VVQN",1376000,10904694,19,"VN");
("VVTH",1303716,10932731,20,"VN");
("VVTS",1081133,10663685,33,"VN");
("VVVH",1874832,10566929,23,"VN");
("VYAN",1978085,9402654,74,"MM");
("VYAS",2194292,9639984,3000,"MM");
("VYBG",2119040,9493024,312,"MM");
("VYBM",2427544,9724181,370,"MM");
("VYCI",1413549,9336744,20,"IN");
("VYCZ",2193169,9608824,252,"MM");
("VYDW",1411275,9819973,84,"MM");
("VYEL",1963893,9619357,302,"MM");
("VYHH",2075861,9679215,3858,"MM");
("VYHL",2491513,9490804,534,"IN");
("VYKG",2130713,9962614,2798,"TH");
("VYKL",2318861,9404294,499,"MM");
("VYKP",1943278,9353482,20,"MM");
("VYKT",1004142,9853544,180,"TH");
("VYLK",1968433,9721428,2940,"MM");
("VYLS",2297063,9775159,2450,"MM");
("VYLY",2094561,9482288,175,"MM");
("VYMD",2172002,9597441,300,"MM");
("VYME",1245200,9862203,75,"MM");
("VYMK",2537684,9734647,475,"MM");
("VYMM",1643881,9765637,52,"MM");
("VYMO",2309522,9663928,600,"MM");
("VYMS",2052049,9925073,1875,"TH");
("VYNP",2536954,9729502,459,"MM");
("VYNS",2087581,9772791,3100,"MM");
("VYPA",1688843,9767124,150,"MM");
("VYPN",1681257,9477426,20,"MM");
("VYPT",2733939,9742498,1500,"CN");
("VYPY",1882182,9526011,120,"MM");
("VYST",2093007,9591309,630,"MM");
("VYSW",2013472,9286407,27,"MM");
("VYTD",1845368,9429741,20,"MM");
("VYTL",2047619,9992911,1280,"TH");
("VYTO",1904773,9640129,160,"MM");
("VYXG",2140011,9412552,1345,"MM");
("VYYY",1689793,9612688,109,"MM");
("WAAA",(-505429),11954548,47,"ID");
("WAAB",(-548949),12256976,137,"ID");
("WAAJ",(-258817),11902774,23,"ID");
("WAAL",(-425522),12249555,500,"ID");
("WAAR",(-476308),12255946,117,"ID");
("WAAT",(-304201),11981768,2884,"ID");
("WABA",(-131748),13228577,1415,"ID");
("WABB",(-118473),13609286,46,"ID");
("WABD",(-400991),13603549,5113,"ID");
("WABE",(-370906),13820088,6351,"ID");
("WABF",(-95065),13481750,50,"ID");
("WABG",(-404555),13627583,5612,"ID");
("WABH",(-392739),13845840,6846,"ID");
("WABI",(-336220),13549434,25,"ID");
("WABK",(-368779),13847913,5120,"ID");
("WABL",(-397693),13761953,7965,"ID");
("WABM",(-444431),14088001,389,"ID");
("WABN",(-470886),13643323,35,"ID");
("WABO",(-187141),13623945,55,"ID");
("WABP",(-452253),13687821,103,"ID");
("WABQ",(-370237),13795356,5910,"ID");
("WABR",(-391094),13622751,5804,"ID");
("WABS",(-115798),13246602,1539,"ID");
("WABT",(-392624),13637413,5802,"ID");
("WABU",(-116963),13607295,0,"ID");
("WABV",(-373921),13702924,7328,"ID");
("WABW",(-221383),13643903,58,"ID");
("WABX",(-374035),13685772,5674,"ID");
("WABY",(-382958),13638465,5840,"ID");
("WADA",(-856067),11608517,52,"ID");
("WADB",(-853411),11868232,3,"ID");
("WADD",(-874871),11515363,14,"ID");
("WADW",(-966266),12029840,39,"ID");
("WAJA",(-293059),14078234,206,"ID");
("WAJB",(-368419),13867361,4457,"ID");
("WAJC",(-327248),13861060,230,"ID");
("WAJD",(-193433),13901400,1,"ID");
("WAJE",(-360595),14090685,1228,"ID");
("WAJF",(-341650),14055019,679,"ID");
("WAJG",(-618534),13863407,18,"ID");
("WAJH",(-797686),13885118,39,"ID");
("WAJI",(-187125),13875188,60,"ID");
("WAJJ",(-257111),14050859,289,"ID");
("WAJK",(-469719),14072018,5230,"ID");
("WAJL",(-307761),13994980,776,"ID");
("WAJN",(-378735),13938385,1492,"ID");
("WAJO",(-490467),14062217,4294,"ID");
("WAJP",(-580417),13985475,62,"ID");
("WAJQ",(-569076),13934687,56,"ID");
("WAJR",(-323378),14098509,1481,"ID");
("WAJS",(-344868),14078038,870,"ID");
("WAJT",(-541875),14043614,218,"ID");
("WAJU",(-367569),14088157,1028,"ID");
("WAJV",(-373028),13870917,4327,"ID");
("WAJW",(-408986),13894861,5421,"ID");
("WAJY",(-42152),13218546,35,"ID");
("WAKA",(-460541),13765637,166,"ID");
("WAKD",(-587437),14070893,122,"ID");
("WAKE",(-717768),13958278,26,"ID");
("WAKH",(-616610),13926369,103,"ID");
("WAKJ",(-138650),13387212,6471,"ID");
("WAKK",(-851242),14041562,10,"ID");
("WAKO",(-809472),13972063,11,"ID");
("WAKP",(-653868),13933048,20,"ID");
("WAKT",(-609849),14029864,74,"ID");
("WALB",389721,11568807,3120,"ID");
("WALG",283164,11737109,10,"ID");
("WALL",(-127266),11688415,12,"ID");
("WALN",180021,11490445,2425,"ID");
("WALQ",(-31141),11741479,49,"ID");
("WALR",332038,11755545,20,"ID");
("WALS",(-48806),11715479,33,"ID");
("WALV",345217,11786459,118,"ID");
("WALX",200475,11774172,47,"ID");
("WAMA",183662,12778516,152,"ID");
("WAMB",68904,12427361,591,"ID");
("WAME",91578,12837927,45,"ID");
("WAMG",63840,12283980,59,"ID");
("WAMH",368754,12552557,16,"ID");
("WAMI",112437,12079126,25,"ID");
("WAMJ",(-7566),12945843,72,"ID");
("WAMK",118951,12789617,29,"ID");
("WAML",(-90855),11990521,284,"ID");
("WAMM",155934,12492556,264,"ID");
("WAMN",401033,12667337,23,"ID");
("WAMP",(-142098),12065495,174,"ID");
("WAMQ",(-187219),12026466,2542,"ID");
("WAMR",204574,12831392,49,"ID");
("WAMT",83772,12737641,49,"ID");
("WAMW",(-104371),12276854,867,"ID");
("WAMY",110111,12141090,28,"ID");
("WAOH",(-398732),11609677,197,"ID");
("WAOI",(-270016),11166773,75,"ID");
("WAON",(-221969),11543085,197,"ID");
("WAOO",(-344031),11475147,66,"ID");
("WAOP",(-221626),11393926,82,"ID");
("WAPA",(-334451),12892341,2,"ID");
("WAPB",(-310656),13050697,29,"ID");
("WAPC",(-452086),12990186,52,"ID");
("WAPD",(-577375),13420915,18,"ID");
("WAPG",(-385758),12669645,1,"ID");
("WAPH",(-63727),12749981,87,"ID");
("WAPI",(-798632),13130354,217,"ID");
("WAPK",(-607064),13427007,168,"ID");
("WAPL",(-566138),13272557,10,"ID");
("WAPN",(-209568),12596612,1,"ID");
("WAPO",(-712774),13176317,107,"ID");
("WAPP",(-371825),12808115,33,"ID");
("WAPQ",(-801479),12719700,1,"TL");
("WAPR",(-323409),12709864,81,"ID");
("WAPT",(-164386),12455881,60,"ID");
("WARA",(-791832),11271167,1726,"ID");
("WARI",(-760300),11143400,360,"ID");
("WARJ",(-778856),11042180,350,"ID");
("WARQ",(-751863),11074529,421,"ID");
("WARR",(-737765),11277345,9,"ID");
("WARS",(-696488),11036634,10,"ID");
("WASB",(-209940),13351450,50,"ID");
("WASC",(-149409),13417105,89,"ID");
("WASE",(-80983),13305017,1869,"ID");
("WASF",(-291962),13226238,220,"ID");
("WASI",(-212763),13215755,13,"ID");
("WASK",(-365163),13369424,35,"ID");
("WASM",(-159111),13329378,383,"ID");
("WASO",(-253766),13343658,10,"ID");
("WASR",(-88277),13404891,41,"ID");
("WASS",(-93209),13111642,10,"ID");
("WAST",(-144355),13201890,140,"ID");
("WASW",(-271733),13450603,44,"ID");
("WATC",(-864581),12223044,115,"ID");
("WATG",(-859656),12047087,3510,"ID");
("WATR",(-1076981),12307185,197,"ID");
("WATS",(-1049430),12184472,250,"ID");
("WATT",(-1017475),12366053,335,"ID");
("WATW",(-836658),12343666,16,"ID");
("WAWI",(-263294),12109863,98,"ID");
("WAWM",(-256213),12032300,164,"ID");
("WAWS",(-252859),12135387,1388,"ID");
("WAWW",(-408332),12240893,538,"ID");
("WBAK",463317,11437584,19,"BN");
("WBGB",313595,11301787,74,"MY");
("WBGD",421309,11558928,2400,"ID");
("WBGF",341903,11515146,1583,"ID");
("WBGG",148063,11033673,89,"MY");
("WBGI",397425,11506587,640,"ID");
("WBGJ",480286,11500638,14,"MY");
("WBGK",290593,11207126,15,"MY");
("WBGL",330843,11478403,247,"MY");
("WBGM",417958,11432662,52,"MY");
("WBGP",201291,11293087,63,"MY");
("WBGR",431083,11398159,59,"MY");
("WBGS",226965,11197588,122,"MY");
("WBGU",455283,11549077,1306,"BN");
("WBGW",484627,11540738,31,"BN");
("WBKB",635550,11647222,46,"MY");
("WBKD",503496,11831844,45,"MY");
("WBKG",535954,11616402,1040,"MY");
("WBKK",592478,11604594,10,"MY");
("WBKL",530921,11524437,101,"MY");
("WBKN",441260,11572432,3300,"ID");
("WBKS",589932,11804996,46,"MY");
("WBKT",692153,11683491,33,"MY");
("WBKW",430696,11811167,57,"MY");
("WBLB",320235,11539943,1470,"ID");
("WBMU",404275,11480117,80,"BN");
("WBSB",493001,11491982,73,"BN");
("WBTM",217336,11119716,15,"MY");
("WIAM",(-734242),10824344,1148,"ID")].
(** openap/data/nav/airports.csv:11502-12001 *)
Definition apts23 : list apt := [
("WIAP",(-746093),10941452,172,"ID");
("WIBB",47088,10144483,102,"ID");
("WIBD",160213,10142952,55,"ID");
("WIBR",(-209678),9970393,1,"ID");
("WIBS",137322,10214006,12,"ID");
("WIBT",105314,10338881,20,"ID");
("WICB",(-628804),10656086,151,"ID");
("WICC",(-689733),10756669,2436,"ID");
("WICT",(-523597),10517353,282,"ID");
("WIDD",110745,10410661,126,"SG");
("WIDN",91658,10452662,52,"ID");
("WIHH",(-627223),10687877,84,"ID");
("WIHL",(-764074),10902924,69,"ID");
("WIIC",(-676046),10853595,89,"ID");
("WIIG",(-564666),10655436,10,"ID");
("WIII",(-614260),10664356,34,"ID");
("WIIP",(-632802),10676515,200,"ID");
("WIIU",(-579828),11047526,24,"ID");
("WIKG",85137,10037039,151,"ID");
("WIKK",(-47495),10457612,95,"ID");
("WIKL",(-328731),10291570,410,"ID");
("WIKM",335350,10625807,10,"MY");
("WIMB",116662,9769860,20,"ID");
("WIME",140255,9942467,922,"ID");
("WIMG",(-86585),10034859,9,"ID");
("WIMH",368241,9863681,49,"ID");
("WIMM",354908,9866222,90,"ID");
("WIMN",226008,9898470,4059,"ID");
("WIMO",(-2070),9829596,7,"ID");
("WIMS",156031,9888252,43,"ID");
("WIOB",83048,10948139,260,"ID");
("WIOD",(-273739),10775436,164,"ID");
("WIOG",(-34813),11174317,123,"ID");
("WIOI",107901,10969258,333,"ID");
("WIOK",(-181038),10996258,46,"ID");
("WION",392030,10838833,7,"ID");
("WIOO",(-14132),10940006,10,"ID");
("WIOP",83686,11293281,297,"MY");
("WIOS",6279,11146766,98,"MY");
("WIPA",(-163230),10363747,82,"ID");
("WIPC",(-136237),10196094,301,"ID");
("WIPD",(-478292),10393088,2100,"ID");
("WIPH",(-209009),10146284,2606,"ID");
("WIPI",(-112598),10213234,138,"ID");
("WIPJ",(-164124),10328640,79,"ID");
("WIPK",(-215350),10613668,108,"ID");
("WIPL",(-385674),10233172,50,"ID");
("WIPO",(-440006),10439678,450,"ID");
("WIPP",(-289387),10468953,37,"ID");
("WIPQ",(-329100),10387642,184,"ID");
("WIPR",(-35186),10232920,62,"ID");
("WIPT",(-77565),10027558,18,"ID");
("WIPU",(-253907),10108540,16,"ID");
("WITA",317316,9728481,14,"ID");
("WITC",404779,9624867,13,"ID");
("WITG",240945,9632311,27,"ID");
("WITL",507409,9725704,28,"ID");
("WITM",522276,9694297,90,"ID");
("WITN",587521,9533141,393,"ID");
("WITT",553457,9541809,65,"ID");
("WMAP",203767,10330314,150,"MY");
("WMBT",281416,10415804,15,"MY");
("WMGK",579831,10247523,20,"MY");
("WMKA",618052,10038981,15,"MY");
("WMKB",547692,10039183,11,"MY");
("WMKC",616847,10228354,16,"MY");
("WMKD",378832,10320975,58,"MY");
("WMKE",454307,10342493,18,"MY");
("WMKF",310544,10169798,111,"MY");
("WMKI",456187,10108684,130,"MY");
("WMKJ",165548,10366444,135,"MY");
("WMKK",274351,10169755,70,"MY");
("WMKL",631551,9971895,29,"MY");
("WMKM",225799,10224846,35,"MY");
("WMKN",537619,10309703,21,"MY");
("WMKP",528590,10026669,11,"MY");
("WMSA",314533,10154075,90,"MY");
("WPDB",(-929866),12528571,96,"TL");
("WPDL",(-854841),12551653,25,"TL");
("WPEC",(-847648),12639232,1777,"TL");
("WRBC",(-341221),11598702,3,"ID");
("WRBM",(-94060),11489162,108,"ID");
("WRBO",(-337602),11253441,3,"ID");
("WRBS",(-249351),11296891,50,"ID");
("WRBT",(-343103),11566405,68,"ID");
("WRBU",(-166735),11489808,88,"ID");
("WRBW",(-146911),11308045,150,"ID");
("WRKA",(-907517),12490115,1029,"ID");
("WRKB",(-881356),12099975,4432,"ID");
("WRKE",(-884944),12165311,49,"ID");
("WRKI",(-853131),12074645,2317,"ID");
("WRKL",(-827376),12299810,1,"ID");
("WRKO",(-848042),11988819,66,"ID");
("WRKT",(-813763),12459355,328,"ID");
("WRLA",38115,11754179,45,"ID");
("WRLC",11867,11747420,57,"ID");
("WRLD",140610,11848284,27,"ID");
("WRLE",(-25541),11659462,87,"ID");
("WRLF",413930,11766411,53,"ID");
("WRLH",(-186904),11621529,44,"ID");
("WRLI",80734,11452914,495,"ID");
("WRLJ",55769,11764236,33,"ID");
("WRLK",214931,11743074,59,"ID");
("WRLM",357167,11661612,19,"ID");
("WRLO",(-20290),11563394,551,"ID");
("WRLP",170987,11496959,2134,"ID");
("WRLT",(-9396),11743309,121,"ID");
("WRLU",98812,11794164,59,"ID");
("WRLW",112197,11684833,192,"ID");
("WRRS",(-848398),11740794,16,"ID");
("WRRT",(-940838),11923641,161,"ID");
("WRRU",(-898594),11721469,38,"ID");
("WRSC",(-719544),11154390,138,"ID");
("WRST",(-702197),11388757,8,"ID");
("WSAC",133270,10400422,1,"SG");
("WSAG",141749,10380368,86,"MY");
("WSAP",134464,10390286,65,"SG");
("WSAT",139964,10370979,50,"MY");
("WSSL",141041,10386337,36,"MY");
("WSSS",133133,10400400,22,"SG");
("WWLD",(-3288294),15165798,20,"AU");
("XBAD",5154672,(-231180),495,"GB");
("XBID",5213614,(-185381),135,"GB");
("XBRE",5380286,(-91961),20,"GB");
("XBRO",5725142,(-583357),23,"GB");
("XCHA",5570482,(-238672),350,"GB");
("XCHI",5294977,(-304668),448,"GB");
("XCUR",5493048,(-185264),800,"GB");
("XDAV",5064050,(-462983),969,"GB");
("XDBM",5207456,1162172,268,"DE");
("XDOR",5786892,(-403068),3,"GB");
("XHAN",5229730,(-247251),645,"GB");
("XHIN",5202616,(-121386),505,"GB");
("XIAB",5140565,10988217,2598,"RU");
("XIAD",5192097,11310442,2283,"RU");
("XIAG",5039351,11633031,2191,"RU");
("XIAI",5208323,11342114,2129,"RU");
("XIAS",5101681,11541076,2083,"RU");
("XIAT",5211011,11349634,2329,"RU");
("XIID",5067032,10612476,1889,"RU");
("XIIO",5254725,10445223,1482,"RU");
("XIUW",5184813,10772052,1689,"RU");
("XLED",5200032,(-247985),250,"GB");
("XLIT",5224007,(-37261),225,"GB");
("XMUL",5502822,(-659582),33,"GB");
("XPLO",5733280,(-567430),80,"GB");
("XPOK",5393123,(-79433),87,"GB");
("XSAC",5226415,(-49410),250,"GB");
("XSBY",5282653,(-72419),480,"GB");
("XSTR",5632502,(-375175),120,"GB");
("XUBS",5482388,3200467,0,"RU");
("XXLY",6438192,(-16152902),0,"US");
("YAAL",(-1644351),13087343,322,"AU");
("YABA",(-3494017),11780443,233,"AU");
("YABF",(-2167271),14526320,733,"AU");
("YABG",(-2733514),14726490,881,"AU");
("YABI",(-1760689),14318063,547,"AU");
("YABL",(-2334795),13472818,1866,"AU");
("YABS",(-2728296),12038248,1673,"AU");
("YABU",(-2333680),13316934,2067,"AU");
("YACD",(-2427321),14548540,989,"AU");
("YACI",(-2520600),14866832,1129,"AU");
("YACS",(-3142100),14190211,617,"AU");
("YADA",(-2590005),14456375,812,"AU");
("YADD",(-3180920),12591638,400,"AU");
("YADE",(-2194505),14827823,853,"AU");
("YADG",(-3528571),13849121,108,"AU");
("YADH",(-2340184),11707765,773,"AU");
("YADL",(-1552618),12315489,2,"AU");
("YADM",(-2127883),14698417,608,"AU");
("YADN",(-2502857),13226954,1724,"AU");
("YADO",(-2540421),13528800,553,"AU");
("YADR",(-2666145),15019475,1002,"AU");
("YADS",(-2654263),13926494,104,"AU");
("YADU",(-3164993),15003905,1725,"AU");
("YADY",(-3599864),14880275,3350,"AU");
("YAGD",(-1851556),13987866,90,"AU");
("YAGN",(-1214010),14214558,157,"AU");
("YAHD",(-2337848),11702031,773,"AU");
("YAKG",(-2794334),13474138,466,"AU");
("YALA",(-2732580),13362790,1076,"AU");
("YALC",(-2279831),13439848,2002,"AU");
("YALD",(-1929060),13607543,710,"AU");
("YALG",(-1869724),13852315,432,"AU");
("YALH",(-2470672),14428907,759,"AU");
("YALM",(-2426156),13440160,1265,"AU");
("YALN",(-3037363),14261096,424,"AU");
("YALP",(-2097943),13783026,656,"AU");
("YALR",(-2264654),13334451,2185,"AU");
("YALT",(-3536991),13685942,284,"AU");
("YALX",(-1906605),13671387,778,"AU");
("YALY",(-2249281),13966302,738,"AU");
("YAMB",(-2763477),15271246,87,"AU");
("YAMC",(-2295504),14524412,760,"AU");
("YAMJ",(-2164985),13522679,1286,"AU");
("YAMK",(-3043325),13713671,250,"AU");
("YAML",(-1795590),13975569,0,"AU");
("YAMM",(-2174435),13524277,1299,"AU");
("YAMN",(-3253322),13769275,158,"AU");
("YAMT",(-2609235),13119894,2279,"AU");
("YAND",(-2167395),14098246,820,"AU");
("YANG",(-2314108),11870148,2346,"AU");
("YANJ",(-2617718),13021139,2188,"AU");
("YANK",(-2890039),13616973,312,"AU");
("YANL",(-1801793),13553492,732,"AU");
("YANN",(-2183771),13312417,5807,"AU");
("YANO",(-2473945),14372311,653,"AU");
("YANR",(-1288090),13168581,61,"AU");
("YANW",(-2119285),13644821,902,"AU");
("YAOR",(-2164556),13919180,956,"AU");
("YAPA",(-1926673),12150294,56,"AU");
("YAPH",(-2365953),14658143,1255,"AU");
("YAPK",(-1308001),13103117,392,"AU");
("YAPO",(-3878505),14364104,0,"AU");
("YARA",(-3730813),14298538,1006,"AU");
("YARC",(-1344070),14292763,348,"AU");
("YARD",(-2167245),13667470,906,"AU");
("YARG",(-1664546),12844637,522,"AU");
("YARI",(-1952096),14135535,278,"AU");
("YARK",(-3040929),13934376,797,"AU");
("YARM",(-3053295),15160899,3556,"AU");
("YARN",(-2408893),13226654,2123,"AU");
("YARP",(-2228347),13572369,1273,"AU");
("YARS",(-3444319),13788552,317,"AU");
("YARY",(-2669593),14104209,334,"AU");
("YASF",(-2931754),15105066,0,"AU");
("YAST",(-2461924),14974920,397,"AU");
("YATL",(-2327584),13634243,961,"AU");
("YATN",(-1725080),14550861,2450,"AU");
("YATP",(-3435710),14216942,180,"AU");
("YATU",(-2404095),14840179,673,"AU");
("YATY",(-2822835),11901760,1578,"AU");
("YAUA",(-2575609),14658722,1337,"AU");
("YAUB",(-2594010),15060958,973,"AU");
("YAUG",(-3432398),11515459,109,"AU");
("YAUR",(-1334836),14171779,20,"AU");
("YAUS",(-2048746),13776440,674,"AU");
("YAUT",(-2315056),14519824,778,"AU");
("YAUV",(-1568455),13000798,72,"AU");
("YAVD",(-2003247),13751806,794,"AU");
("YAVE",(-3803628),14449146,32,"AU");
("YAVM",(-3656445),14458635,449,"AU");
("YAVN",(-3600300),14674070,0,"AU");
("YAWT",(-2419762),15188915,30,"AU");
("YAYE",(-2517809),13096671,1625,"AU");
("YAYR",(-1959506),14731628,41,"AU");
("YBAA",(-1282383),13281298,129,"AU");
("YBAB",(-2418990),14982087,348,"AU");
("YBAD",(-3095192),14908364,990,"AU");
("YBAF",(-2757032),15299717,62,"AU");
("YBAH",(-1525795),13551015,26,"AU");
("YBAK",(-3533168),13942894,42,"AU");
("YBAL",(-3234285),12361019,571,"AU");
("YBAN",(-1674570),12590064,1330,"AU");
("YBAR",(-2357279),14529989,877,"AU");
("YBAS",(-2380101),13389338,1789,"AU");
("YBAU",(-1014782),14217100,45,"AU");
("YBAW",(-2048960),13847143,808,"AU");
("YBAY",(-1314479),13581372,79,"AU");
("YBBA",(-3038784),15059553,1672,"AU");
("YBBC",(-2095163),12015926,704,"AU");
("YBBE",(-2733186),11766569,1197,"AU");
("YBBH",(-1648432),13928185,19,"AU");
("YBBL",(-2741316),11583632,842,"AU");
("YBBN",(-2740331),15311795,12,"AU");
("YBBO",(-3041203),13547681,515,"AU");
("YBBS",(-1337562),13149232,399,"AU");
("YBBT",(-3613648),14371656,294,"AU");
("YBCA",(-1576646),13004658,102,"AU");
("YBCB",(-3081743),11786364,1120,"AU");
("YBCF",(-2332125),14458559,697,"AU");
("YBCG",(-2816412),15350639,20,"AU");
("YBCK",(-2443507),14542108,928,"AU");
("YBCM",(-2738791),15246222,314,"AU");
("YBCR",(-1305144),13102433,361,"AU");
("YBCS",(-1686583),14574356,10,"AU");
("YBCV",(-2640793),14625757,1003,"AU");
("YBCX",(-2734289),15342437,26,"AU");
("YBDD",(-2481198),14300602,484,"AU");
("YBDF",(-1727959),12746528,1749,"AU");
("YBDG",(-3673294),14432911,705,"AU");
("YBDI",(-4032212),14787940,41,"AU");
("YBDM",(-3180336),14816111,704,"AU");
("YBDP",(-4102235),14741188,54,"AU");
("YBDS",(-3028286),13453239,602,"AU");
("YBDU",(-1838031),12944665,1217,"AU");
("YBDV",(-2588519),13934051,157,"AU");
("YBDX",(-2286300),11495767,295,"AU");
("YBEA",(-2030579),14219889,440,"AU");
("YBEB",(-1754336),12829891,805,"AU");
("YBEC",(-3047026),11787976,1300,"AU");
("YBEE",(-3019669),13955313,381,"AU");
("YBEF",(-3744546),14325079,1180,"AU");
("YBEG",(-1965532),14628610,1015,"AU");
("YBEL",(-4236861),14701969,1189,"AU");
("YBEO",(-2569737),14073316,248,"AU");
("YBES",(-1458639),13311321,489,"AU");
("YBET",(-2991591),14978491,731,"AU");
("YBEV",(-3212156),11694740,747,"AU");
("YBEW",(-3191267),14464690,546,"AU");
("YBEY",(-2162346),14417374,843,"AU");
("YBFB",(-4126019),14488377,833,"AU");
("YBFM",(-3375300),12235562,332,"AU");
("YBFT",(-3749239),14342595,1174,"AU");
("YBGB",(-1701737),12264070,118,"AU");
("YBGD",(-2254053),11726535,1856,"AU");
("YBGE",(-3382645),11510060,380,"AU");
("YBGH",(-1627839),13571686,326,"AU");
("YBGI",(-3115231),12564989,528,"AU");
("YBGO",(-2014663),12797231,1440,"AU");
("YBGP",(-3604980),14671150,519,"AU");
("YBGR",(-3661946),14394699,500,"AU");
("YBGT",(-2536106),14378576,685,"AU");
("YBGY",(-2949714),15019331,785,"AU");
("YBHB",(-4342020),14616005,14,"AU");
("YBHI",(-3200903),14146091,958,"AU");
("YBHK",(-2125607),13971467,1265,"AU");
("YBHM",(-2035114),14894655,14,"AU");
("YBIA",(-2981285),15052741,950,"AU");
("YBIC",(-1377744),13619624,63,"AU");
("YBID",(-3430751),14935945,2500,"AU");
("YBIE",(-2434049),13945602,300,"AU");
("YBIG",(-1563861),13635471,11,"AU");
("YBII",(-1671695),13573828,254,"AU");
("YBIK",(-2991704),13618879,393,"AU");
("YBIL",(-1956225),12766337,997,"AU");
("YBIN",(-2552461),15204210,388,"AU");
("YBIR",(-3600041),14291390,341,"AU");
("YBIU",(-3059534),11677521,950,"AU");
("YBIY",(-1281613),13646837,52,"AU");
("YBIZ",(-1473367),14411971,63,"AU");
("YBJP",(-1321720),13639026,42,"AU");
("YBJW",(-2768062),12161561,1458,"AU");
("YBKA",(-2264684),15008540,75,"AU");
("YBKD",(-1703156),14392237,682,"AU");
("YBKE",(-3004194),14595545,352,"AU");
("YBKL",(-1295758),13659669,46,"AU");
("YBKM",(-2238308),11736440,1921,"AU");
("YBKS",(-1970027),13581032,761,"AU");
("YBKT",(-1775518),13953097,21,"AU");
("YBKU",(-2644028),15051598,1103,"AU");
("YBKW",(-1921523),14035508,265,"AU");
("YBLA",(-3655195),14600675,569,"AU");
("YBLB",(-2681668),11461107,444,"AU");
("YBLC",(-3053794),13933256,474,"AU");
("YBLD",(-3182260),11679437,558,"AU");
("YBLG",(-2897927),14085609,313,"AU");
("YBLH",(-2701020),14295764,497,"AU");
("YBLI",(-3032736),15245677,4042,"AU");
("YBLL",(-2805152),14748138,603,"AU");
("YBLM",(-3111592),13872357,1972,"AU");
("YBLN",(-3369492),11539777,55,"AU");
("YBLP",(-1919238),14649302,116,"AU");
("YBLS",(-3045928),15064614,1793,"AU");
("YBLT",(-3750526),14378725,1433,"AU");
("YBLU",(-2762252),12059317,1552,"AU");
("YBLV",(-3179286),11601559,77,"AU");
("YBLW",(-2161616),14663771,687,"AU");
("YBMA",(-2065450),13948570,1121,"AU");
("YBMD",(-1587097),14532595,57,"AU");
("YBME",(-3414076),14732529,812,"AU");
("YBMI",(-2872298),14959597,613,"AU");
("YBMK",(-2116320),14917749,18,"AU");
("YBMM",(-3625463),14462672,347,"AU");
("YBMR",(-3425734),14045741,104,"AU");
("YBMT",(-1734804),14601492,35,"AU");
("YBMY",(-1451802),13287801,706,"AU");
("YBNA",(-2883573),15355185,6,"AU");
("YBNC",(-2849517),12095422,1309,"AU");
("YBND",(-2650683),14939702,1053,"AU");
("YBNI",(-1319507),13622308,7,"AU");
("YBNM",(-1791821),13689087,919,"AU");
("YBNP",(-1733797),14556533,2549,"AU");
("YBNS",(-3788329),14756550,165,"AU");
("YBNY",(-1886882),13448873,773,"AU");
("YBOA",(-2802065),15267174,320,"AU");
("YBOB",(-3120722),12031372,1366,"AU");
("YBOC",(-3288410),13836645,1500,"AU");
("YBOE",(-2226880),12137768,1453,"AU");
("YBOG",(-3073355),15003681,802,"AU");
("YBOI",(-923225),14221481,10,"PG");
("YBOK",(-2740810),15173144,1335,"AU");
("YBOL",(-2861814),15033890,733,"AU");
("YBOM",(-3690462),14918023,2297,"AU");
("YBON",(-3129505),11626645,1018,"AU");
("YBOO",(-3134013),11618028,939,"AU");
("YBOP",(-3389228),11644959,820,"AU");
("YBOR",(-3626609),14072201,265,"AU");
("YBOS",(-1811187),12563559,381,"AU");
("YBOT",(-2727197),14689468,875,"AU");
("YBOU",(-2290751),13989756,542,"AU");
("YBOV",(-3164826),12901023,315,"AU");
("YBOY",(-2775532),11990051,1715,"AU");
("YBPI",(-2080003),14927679,37,"AU");
("YBPK",(-4216170),14649391,2216,"AU");
("YBPN",(-2049114),14854412,82,"AU");
("YBRA",(-3696199),14769528,2308,"AU");
("YBRC",(-2153832),13386644,1722,"AU");
("YBRD",(-1534467),13027430,93,"AU");
("YBRE",(-1208437),13680737,27,"AU");
("YBRI",(-3429238),14061083,62,"AU");
("YBRJ",(-3015379),14897145,544,"AU");
("YBRK",(-2338242),15046519,34,"AU");
("YBRL",(-1608106),13630038,54,"AU");
("YBRM",(-1794568),12221568,56,"AU");
("YBRN",(-3461948),14357780,210,"AU");
("YBRO",(-3189007),11810553,947,"AU");
("YBRS",(-3825929),14442731,50,"AU");
("YBRT",(-3196250),13909885,985,"AU");
("YBRU",(-1863069),13593884,692,"AU");
("YBRW",(-2998075),14681014,414,"AU");
("YBRY",(-2267218),11915696,2002,"AU");
("YBSG",(-1261584),14207626,145,"AU");
("YBSN",(-1664762),13584369,215,"AU");
("YBSP",(-2352371),13385276,2398,"AU");
("YBSS",(-3773971),14441881,520,"AU");
("YBST",(-3371709),14750387,681,"AU");
("YBSU",(-2659437),15309431,14,"AU");
("YBTC",(-2418170),14288135,654,"AU");
("YBTD",(-2335081),14155607,378,"AU");
("YBTG",(-2713215),15336113,20,"AU");
("YBTH",(-3340078),14965070,2435,"AU");
("YBTI",(-1175906),13061240,66,"AU");
("YBTK",(-1708325),13956522,43,"AU");
("YBTL",(-1925832),14676473,18,"AU");
("YBTN",(-3052369),13267131,512,"AU");
("YBTP",(-1942905),14584637,1014,"AU");
("YBTR",(-2359617),14880680,657,"AU");
("YBTU",(-1870808),13407371,1073,"AU");
("YBTV",(-1265961),14267099,282,"AU");
("YBUD",(-2489651),15231706,106,"AU");
("YBUG",(-2848333),11974579,1438,"AU");
("YBUH",(-2206989),13974743,833,"AU");
("YBUL",(-3018066),13490564,531,"AU");
("YBUN",(-3338051),11567266,52,"AU");
("YBUO",(-2852180),14295717,336,"AU");
("YBUR",(-1230813),13595838,93,"AU");
("YBUT",(-3176285),14941974,1388,"AU");
("YBUY",(-3613219),14913721,2584,"AU");
("YBVA",(-3408830),13833644,160,"AU");
("YBVE",(-1651190),14417899,591,"AU");
("YBVL",(-3158314),15017498,1405,"AU");
("YBVY",(-1547285),12976013,26,"AU");
("YBWG",(-2736638),12102429,1645,"AU");
("YBWI",(-2060050),14709487,533,"AU");
("YBWM",(-1688059),14347964,466,"AU");
("YBWN",(-2002332),14820908,25,"AU");
("YBWO",(-2246176),14499405,767,"AU");
("YBWP",(-1267322),14191612,63,"AU");
("YBWR",(-1738366),14417359,1037,"AU");
("YBWT",(-1807243),13827010,314,"AU");
("YBWX",(-2086898),11540256,26,"AU");
("YBXH",(-3784628),14172388,483,"AU");
("YBYA",(-2551400),11880209,1751,"AU");
("YBYD",(-2217018),11992851,1650,"AU");
("YBYI",(-4323227),14737815,50,"AU");
("YBYL",(-2921186),15261323,398,"AU");
("YBYM",(-1268710),13662718,40,"AU");
("YBYN",(-1656800),14515182,1169,"AU");
("YBYO",(-2722750),15161132,1357,"AU");
("YBYR",(-3065470),14638957,525,"AU");
("YBYS",(-1672804),12543755,1260,"AU");
("YBYW",(-2542048),14561063,1259,"AU");
("YCAB",(-2707765),15297988,79,"AU");
("YCAC",(-1760357),13154562,636,"AU");
("YCAE",(-4197482),14752935,708,"AU");
("YCAG",(-3228474),12547266,287,"AU");
("YCAH",(-3177382),14960956,1654,"AU");
("YCAI",(-3012116),12056352,1610,"AU");
("YCAJ",(-1869220),12588467,523,"AU");
("YCAL",(-3713421),14415823,965,"AU");
("YCAM",(-2189405),14091336,833,"AU");
("YCAN",(-1235058),13294590,45,"AU");
("YCAR",(-2488669),11366394,13,"AU");
("YCAS",(-2887956),15305570,85,"AU");
("YCAW",(-3482898),15057605,164,"AU");
("YCBA",(-3154156),14578725,724,"AU");
("YCBB",(-3133545),14927002,2117,"AU");
("YCBC",(-3033327),14846576,466,"AU");
("YCBE",(-1947411),14092599,226,"AU");
("YCBG",(-4282779),14747101,66,"AU");
("YCBL",(-1798663),12415354,186,"AU");
("YCBN",(-4038999),14800885,152,"AU");
("YCBP",(-2904435),13471429,739,"AU");
("YCBR",(-2951836),14857838,500,"AU");
("YCBS",(-3094763),14631104,578,"AU");
("YCBT",(-3152601),14581308,773,"AU");
("YCBY",(-1621134),14542965,42,"AU");
("YCCA",(-2676813),15061428,1028,"AU");
("YCCF",(-1668310),13572880,256,"AU");
("YCCK",(-2063140),13558583,1125,"AU");
("YCCR",(-1300391),13112915,175,"AU");
("YCCT",(-1004937),14306790,10,"PG");
("YCCY",(-2066019),14049947,616,"AU");
("YCDB",(-3105686),13586281,520,"AU");
("YCDE",(-3831863),14305753,460,"AU");
("YCDH",(-2791198),13405954,941,"AU");
("YCDO",(-3307020),14721064,650,"AU");
("YCDR",(-2680473),15310275,37,"AU");
("YCDS",(-2525140),15233089,157,"AU")].
(** openap/data/nav/airports.csv:12002-12501 *)
Definition apts24 : list apt := [
("YCDT",(-2197293),13860261,572,"AU");
("YCDU",(-3212783),13369789,77,"AU");
("YCDV",(-2510988),14682635,1774,"AU");
("YCED",(-2457956),15019709,750,"AU");
("YCEE",(-3371025),13649921,589,"AU");
("YCEL",(-2309940),14800534,827,"AU");
("YCEM",(-3773233),14540874,301,"AU");
("YCES",(-3814962),14426159,1058,"AU");
("YCFD",(-1702475),13132487,420,"AU");
("YCFE",(-2171175),14337810,853,"AU");
("YCFH",(-2701109),13889727,98,"AU");
("YCFL",(-1496738),14530800,46,"AU");
("YCFN",(-2792854),15184392,1450,"AU");
("YCFS",(-3033838),15310653,18,"AU");
("YCGA",(-2793893),15311800,202,"AU");
("YCGI",(-2579112),12294209,1500,"AU");
("YCGL",(-2468239),14715281,1326,"AU");
("YCGO",(-1713341),14452839,1110,"AU");
("YCGR",(-2986613),13357034,612,"AU");
("YCHA",(-2043332),14384920,1159,"AU");
("YCHB",(-2842873),15208482,2199,"AU");
("YCHE",(-2895158),11956542,1502,"AU");
("YCHI",(-1328500),13635272,101,"AU");
("YCHL",(-3628615),14333511,458,"AU");
("YCHP",(-3155234),11565228,110,"AU");
("YCHQ",(-2160499),14760620,795,"AU");
("YCHS",(-1964420),14413877,2819,"AU");
("YCHT",(-2004754),14626637,955,"AU");
("YCHY",(-3242834),15007398,944,"AU");
("YCIG",(-3233794),11782103,1116,"AU");
("YCII",(-2223961),15029741,30,"AU");
("YCIL",(-1549927),12853007,48,"AU");
("YCIN",(-1757563),12381509,300,"AU");
("YCIP",(-1856360),14500007,1871,"AU");
("YCJU",(-1868477),14475190,1678,"AU");
("YCKD",(-4052106),14811900,185,"AU");
("YCKI",(-1115722),13247735,49,"AU");
("YCKN",(-1544075),14517559,26,"AU");
("YCKY",(-3204639),12608424,290,"AU");
("YCLE",(-3723516),14044209,125,"AU");
("YCLH",(-1981133),14016299,417,"AU");
("YCLI",(-2633802),14257814,480,"AU");
("YCLM",(-2945148),14872402,484,"AU");
("YCLO",(-3359983),14531612,354,"AU");
("YCLQ",(-1639662),12292768,55,"AU");
("YCLR",(-2424887),14522636,837,"AU");
("YCLS",(-2748088),15138097,1177,"AU");
("YCLW",(-2150141),13095684,1614,"AU");
("YCLY",(-3479666),14584752,390,"AU");
("YCMA",(-2422603),14227021,551,"AU");
("YCMC",(-2334170),14987296,191,"AU");
("YCMD",(-3123389),13838077,373,"AU");
("YCMH",(-3166292),15273857,7,"AU");
("YCMK",(-1885860),14547107,1458,"AU");
("YCMM",(-3424951),13571239,207,"AU");
("YCMT",(-2276686),14761650,908,"AU");
("YCMU",(-2802669),14561960,630,"AU");
("YCMW",(-1991045),13812069,1300,"AU");
("YCNA",(-2313346),14343887,765,"AU");
("YCNF",(-2166942),12158729,992,"AU");
("YCNG",(-3682197),14027370,77,"AU");
("YCNH",(-2968264),11588628,903,"AU");
("YCNK",(-3278973),15133926,214,"AU");
("YCNM",(-3098626),14836930,604,"AU");
("YCNN",(-3102390),12315190,1148,"AU");
("YCNO",(-3532323),14510299,304,"AU");
("YCNP",(-1314338),13014150,95,"AU");
("YCNQ",(-3727439),14081229,192,"AU");
("YCNR",(-3750782),14916841,361,"AU");
("YCNW",(-2097049),14739002,950,"AU");
("YCNY",(-1875371),13870491,416,"AU");
("YCOD",(-2673960),14063561,240,"AU");
("YCOE",(-1376067),14311225,532,"AU");
("YCOF",(-3458907),13550910,20,"AU");
("YCOG",(-2068385),11966139,266,"AU");
("YCOH",(-3582299),14421214,270,"AU");
("YCOI",(-3335900),11619637,779,"AU");
("YCOL",(-3660700),14169459,531,"AU");
("YCOM",(-3629042),14897512,3106,"AU");
("YCOO",(-1290313),13252546,43,"AU");
("YCOR",(-3598310),14634642,469,"AU");
("YCOS",(-2799121),12290330,1663,"AU");
("YCOT",(-1952414),14634117,1053,"AU");
("YCOW",(-1897102),14052459,156,"AU");
("YCOY",(-2312317),11378219,4,"AU");
("YCPC",(-2349288),15123530,2,"AU");
("YCPD",(-1130584),13182937,103,"AU");
("YCPH",(-2794962),13432948,748,"AU");
("YCPI",(-2663013),14501094,870,"AU");
("YCPN",(-1871257),14430973,1586,"AU");
("YCPW",(-1383675),14148517,36,"AU");
("YCPX",(-1258120),13130926,46,"AU");
("YCRA",(-3045985),14770375,435,"AU");
("YCRB",(-3189362),13229426,24,"AU");
("YCRG",(-3618529),14787889,962,"AU");
("YCRK",(-1887392),12592574,537,"AU");
("YCRL",(-3449861),14945541,2942,"AU");
("YCRN",(-4115865),14701329,345,"AU");
("YCRP",(-2059957),14024191,693,"AU");
("YCRS",(-2423367),14847175,741,"AU");
("YCRT",(-3239993),13851749,1386,"AU");
("YCRY",(-1821764),14224749,350,"AU");
("YCSA",(-2365901),11514406,685,"AU");
("YCSB",(-2608585),11521409,656,"AU");
("YCSC",(-2734696),11516935,850,"AU");
("YCSD",(-2143975),11594374,153,"AU");
("YCSE",(-2246460),11524458,186,"AU");
("YCSF",(-2483865),11528265,537,"AU");
("YCSI",(-2125482),14301252,770,"AU");
("YCSK",(-6628797),11073806,1179,"AU");
("YCSL",(-2464562),14847277,786,"AU");
("YCSM",(-2289462),14458360,734,"AU");
("YCSP",(-2533037),13175364,1617,"AU");
("YCSV",(-2060164),14784712,591,"AU");
("YCSW",(-1942127),14654086,1836,"AU");
("YCTC",(-2281512),12258014,1250,"AU");
("YCTH",(-2196677),14030356,844,"AU");
("YCTI",(-1609405),12360807,365,"AU");
("YCTM",(-3461705),14803567,1110,"AU");
("YCTN",(-3760743),14136105,503,"AU");
("YCTP",(-1395701),14317659,651,"AU");
("YCTS",(-2014657),13940595,1195,"AU");
("YCTW",(-2832403),12239680,1570,"AU");
("YCUA",(-3327723),14876321,1576,"AU");
("YCUD",(-2559458),14150198,407,"AU");
("YCUE",(-2745793),11791048,1453,"AU");
("YCUM",(-2357305),14492189,924,"AU");
("YCUN",(-3162725),11721135,699,"AU");
("YCUS",(-3421134),13563444,197,"AU");
("YCUW",(-2515302),14135048,324,"AU");
("YCVD",(-3516096),14821611,790,"AU");
("YCVG",(-3469503),13857916,46,"AU");
("YCVH",(-1720425),13735008,535,"AU");
("YCVK",(-2331117),13858488,489,"AU");
("YCVM",(-3183945),11596936,87,"AU");
("YCVS",(-3048919),11508703,10,"AU");
("YCWA",(-2296755),11880380,2300,"AU");
("YCWC",(-1265893),13171137,31,"AU");
("YCWD",(-1794658),13590564,723,"AU");
("YCWE",(-1100286),13675933,32,"AU");
("YCWG",(-1679819),14568953,44,"AU");
("YCWH",(-2995199),13415177,604,"AU");
("YCWI",(-2770387),13832633,52,"AU");
("YCWL",(-3366348),13688745,127,"AU");
("YCWN",(-2646510),14336951,500,"AU");
("YCWO",(-3783667),14271790,630,"AU");
("YCWR",(-3383913),14864486,966,"AU");
("YCWW",(-3353616),14866496,1073,"AU");
("YCXA",(-2597228),15300313,34,"AU");
("YCXR",(-1586492),13455671,683,"AU");
("YCYE",(-1989497),12886601,1372,"AU");
("YCYH",(-1799629),12471396,317,"AU");
("YCYT",(-1737554),14445002,1405,"AU");
("YCYV",(-1406667),14298333,650,"AU");
("YDAG",(-1793990),14359037,1004,"AU");
("YDAJ",(-2169959),13952943,1095,"AU");
("YDAL",(-3456709),14618316,460,"AU");
("YDAR",(-4257327),14806779,60,"AU");
("YDAY",(-2715414),15125914,1137,"AU");
("YDBG",(-2025000),14730000,209,"AU");
("YDBI",(-2859228),14821561,567,"AU");
("YDBR",(-1604651),14238944,164,"AU");
("YDBY",(-1736885),12365345,24,"AU");
("YDDF",(-1605423),14300879,305,"AU");
("YDDP",(-2732371),14701184,818,"AU");
("YDDY",(-1385490),13120357,152,"AU");
("YDEA",(-1366800),13428656,471,"AU");
("YDEG",(-3706657),14894038,2543,"AU");
("YDEK",(-3494509),11739070,230,"AU");
("YDEL",(-4151746),14663213,927,"AU");
("YDEN",(-3237349),15061268,402,"AU");
("YDEV",(-2121376),14023178,920,"AU");
("YDGA",(-2782783),11730869,1454,"AU");
("YDGI",(-2813751),14087839,292,"AU");
("YDGN",(-1538847),12629845,1276,"AU");
("YDGR",(-2779572),11699019,1422,"AU");
("YDGT",(-2527827),11619983,965,"AU");
("YDGY",(-2018313),11919916,55,"AU");
("YDHA",(-1254684),13673923,8,"AU");
("YDHI",(-1225026),13509286,64,"AU");
("YDHJ",(-1288839),13546237,329,"AU");
("YDHP",(-1305267),13616561,49,"AU");
("YDII",(-1262757),13036815,20,"AU");
("YDIM",(-1712538),14509312,1551,"AU");
("YDIX",(-1511881),14331028,574,"AU");
("YDKI",(-1793599),14613942,20,"AU");
("YDLC",(-2664213),14972472,1059,"AU");
("YDLD",(-2245725),13488139,1637,"AU");
("YDLG",(-2487989),14778795,2525,"AU");
("YDLH",(-2642821),13550558,381,"AU");
("YDLK",(-2900802),13848056,112,"AU");
("YDLL",(-3684846),14369471,718,"AU");
("YDLO",(-2786803),12126380,1472,"AU");
("YDLQ",(-3556105),14494029,316,"AU");
("YDLT",(-1699215),14131644,50,"AU");
("YDLV",(-1254718),13068253,112,"AU");
("YDLW",(-1625739),13337706,692,"AU");
("YDME",(-3040099),11982318,1652,"AU");
("YDMF",(-2967140),11929132,1449,"AU");
("YDMG",(-1793325),13880777,153,"AU");
("YDMN",(-1374735),13068936,47,"AU");
("YDMR",(-1562160),13164090,732,"AU");
("YDNA",(-4276280),14655621,935,"AU");
("YDNB",(-2206241),14623634,838,"AU");
("YDNI",(-957835),14377664,220,"PG");
("YDNK",(-3288241),14357654,272,"AU");
("YDNV",(-2808734),14436544,498,"AU");
("YDOC",(-3265352),15120832,185,"AU");
("YDOD",(-3635967),14300462,409,"AU");
("YDON",(-3117168),11704238,1021,"AU");
("YDOO",(-1871327),14055055,123,"AU");
("YDOP",(-1959980),14683840,250,"AU");
("YDOR",(-1654834),14181874,90,"AU");
("YDOT",(-1962483),14629233,966,"AU");
("YDPD",(-2414864),14110855,312,"AU");
("YDPO",(-4116973),14641911,33,"AU");
("YDPR",(-2261429),13519572,1575,"AU");
("YDPT",(-3157427),12518481,488,"AU");
("YDPW",(-2429928),13413780,1444,"AU");
("YDRA",(-2929249),11492727,23,"AU");
("YDRC",(-2526723),11586711,801,"AU");
("YDRD",(-1571754),12637612,1204,"AU");
("YDRE",(-2290297),14397717,731,"AU");
("YDRG",(-2374592),14966115,452,"AU");
("YDRH",(-2707845),14189747,380,"AU");
("YDRI",(-2568818),14022259,190,"AU");
("YDRL",(-2643326),13325982,1355,"AU");
("YDRV",(-1878098),14468964,1674,"AU");
("YDTY",(-1750644),14541286,3222,"AU");
("YDUK",(-2798137),12228642,1581,"AU");
("YDUM",(-3332297),11773888,891,"AU");
("YDUN",(-2751536),15342612,250,"AU");
("YDUP",(-1266826),13537112,231,"AU");
("YDVE",(-3227521),11653283,991,"AU");
("YDVR",(-2485940),12911432,1942,"AU");
("YDWF",(-1574680),13191253,730,"AU");
("YDWG",(-3269685),11607016,912,"AU");
("YDWP",(-1669468),12307218,16,"AU");
("YDWU",(-3019408),11664992,1076,"AU");
("YDYD",(-2207025),13533558,1332,"AU");
("YDYS",(-2261671),14835906,670,"AU");
("YEBV",(-3389090),11503811,321,"AU");
("YECH",(-3615763),14475853,323,"AU");
("YECL",(-3170758),12886574,26,"AU");
("YECT",(-3169612),12882126,16,"AU");
("YEDA",(-2873529),13858822,43,"AU");
("YEDE",(-3702448),14126628,518,"AU");
("YEDM",(-2377370),11609369,1110,"AU");
("YEEB",(-2983797),11524234,268,"AU");
("YEES",(-3259889),15133818,115,"AU");
("YEGA",(-2931428),14585233,457,"AU");
("YEGF",(-2148305),14769292,860,"AU");
("YEGS",(-2200247),14691537,670,"AU");
("YEIN",(-1850983),14409448,1489,"AU");
("YELA",(-1792060),12482371,441,"AU");
("YELC",(-2530042),15322117,4,"AU");
("YELD",(-1201807),13556815,101,"AU");
("YELE",(-2636469),11803461,1422,"AU");
("YELI",(-1755905),12483062,362,"AU");
("YELK",(-2116776),13543960,1188,"AU");
("YELL",(-1752148),13352585,722,"AU");
("YELM",(-3649529),14463984,436,"AU");
("YELN",(-3364500),13489850,20,"AU");
("YELR",(-1511713),14508803,117,"AU");
("YEMC",(-2093505),12007992,641,"AU");
("YEMG",(-2671172),14326073,545,"AU");
("YEMJ",(-2863283),13220314,841,"AU");
("YEML",(-2357207),14817103,623,"AU");
("YEMM",(-2798219),12050209,1681,"AU");
("YEMP",(-2325174),15081396,44,"AU");
("YEMU",(-1315406),13484750,210,"AU");
("YEPA",(-2873092),14003996,95,"AU");
("YEPB",(-2956163),13993667,20,"AU");
("YEPC",(-3035218),13965613,148,"AU");
("YEPD",(-3118538),13938001,195,"AU");
("YEPE",(-3197590),13920824,677,"AU");
("YEPL",(-2830354),14122717,395,"AU");
("YEPR",(-2044154),13524860,1020,"AU");
("YEQO",(-1599499),12796993,331,"AU");
("YERA",(-2550244),11717063,1435,"AU");
("YERH",(-2561298),12157697,1693,"AU");
("YERI",(-3506742),14768216,652,"AU");
("YERL",(-2520566),13324783,1378,"AU");
("YERN",(-2626832),13217131,2319,"AU");
("YERO",(-2555547),11665719,1305,"AU");
("YERS",(-2058132),14108377,403,"AU");
("YERU",(-3142926),13942780,235,"AU");
("YERY",(-2996549),14643431,378,"AU");
("YESC",(-1772106),13941516,50,"AU");
("YESD",(-2535592),15110701,880,"AU");
("YESE",(-2096567),14099793,642,"AU");
("YESN",(-3183109),15130605,1691,"AU");
("YESP",(-3368020),12181581,470,"AU");
("YEUA",(-3674835),14551033,583,"AU");
("YEUD",(-2444194),11560322,771,"AU");
("YEUG",(-2551606),15312500,5,"AU");
("YEUK",(-1986989),14148247,328,"AU");
("YEUL",(-2662108),14822782,1206,"AU");
("YEUO",(-2817295),14503639,500,"AU");
("YEVA",(-1799671),13486167,705,"AU");
("YEVD",(-2909426),15342026,20,"AU");
("YEVM",(-2303765),14371138,687,"AU");
("YEVP",(-2703654),13268138,1588,"AU");
("YEVV",(-1426366),13282576,754,"AU");
("YEWO",(-3023462),14751407,423,"AU");
("YEXM",(-2204778),11410002,2,"AU");
("YEYD",(-2820447),13448839,604,"AU");
("YFBS",(-3336171),14792105,760,"AU");
("YFCN",(-2048692),14057791,539,"AU");
("YFCU",(-2128673),11612911,159,"AU");
("YFDF",(-2229005),11943421,1565,"AU");
("YFDN",(-3501476),14737245,710,"AU");
("YFFT",(-3384369),13877490,1342,"AU");
("YFIL",(-3566063),14555771,375,"AU");
("YFLI",(-4009443),14799313,33,"AU");
("YFLO",(-1829822),12844989,1215,"AU");
("YFLR",(-1445566),13168676,227,"AU");
("YFLS",(-3373312),13450037,41,"AU");
("YFLT",(-1577611),14405383,614,"AU");
("YFMA",(-4158638),14797222,800,"AU");
("YFNE",(-2559033),13458114,915,"AU");
("YFON",(-4235531),14759371,1260,"AU");
("YFOR",(-2533807),11837080,1667,"AU");
("YFOS",(-1815000),12578333,413,"AU");
("YFRD",(-3122016),13977928,139,"AU");
("YFRG",(-2678046),13201814,1732,"AU");
("YFRH",(-2760778),15237043,333,"AU");
("YFRI",(-4199767),14825175,79,"AU");
("YFRK",(-3442429),11701682,800,"AU");
("YFRS",(-2593625),14786734,1318,"AU");
("YFRT",(-3083267),12811283,510,"AU");
("YFRV",(-1516065),12783653,20,"AU");
("YFSA",(-1858573),14356054,1378,"AU");
("YFSK",(-3767741),14421632,1462,"AU");
("YFSR",(-1356057),13262990,294,"AU");
("YFTA",(-3257594),11970269,1358,"AU");
("YFTC",(-2156534),14844646,755,"AU");
("YFTN",(-2991012),13947478,810,"AU");
("YFTZ",(-1818916),12555798,368,"AU");
("YFWD",(-2229168),14579763,950,"AU");
("YFWY",(-1398160),12717352,382,"AU");
("YGAD",(-3224225),11568322,7,"AU");
("YGAI",(-1231735),13469858,122,"AU");
("YGAM",(-1654451),14366260,435,"AU");
("YGAN",(-1304417),13594140,77,"AU");
("YGAR",(-2379451),11352840,26,"AU");
("YGAS",(-2759320),15225566,460,"AU");
("YGAT",(-2756004),15234388,320,"AU");
("YGAW",(-3460206),13871542,165,"AU");
("YGAY",(-2561804),15161503,368,"AU");
("YGBI",(-1164921),13336837,62,"AU");
("YGBO",(-3756680),14990801,93,"AU");
("YGBS",(-1921583),14366124,1906,"AU");
("YGBW",(-3596341),14437799,287,"AU");
("YGCR",(-3205048),15197609,383,"AU");
("YGDA",(-2906981),14738086,459,"AU");
("YGDD",(-2133264),14808809,1086,"AU");
("YGDH",(-3095356),15024059,863,"AU");
("YGDI",(-2852697),15031553,714,"AU");
("YGDL",(-3029558),12177812,1267,"AU");
("YGDN",(-1868777),12858911,1139,"AU");
("YGDO",(-3505488),14925489,1895,"AU");
("YGDR",(-2329143),13443817,2185,"AU");
("YGDS",(-1862210),13923247,170,"AU");
("YGDT",(-3328832),13832261,705,"AU");
("YGDV",(-2025062),14243616,642,"AU");
("YGEE",(-1420667),12735000,383,"AU");
("YGEI",(-3638013),14817953,1389,"AU");
("YGEL",(-2878767),11470165,121,"AU");
("YGFN",(-2974711),15303196,110,"AU");
("YGGE",(-2876144),11696493,1185,"AU");
("YGGG",(-3229834),14955460,1443,"AU");
("YGGI",(-3400044),14571327,374,"AU");
("YGGL",(-1484991),14326982,645,"AU");
("YGGO",(-3131461),15091222,1496,"AU");
("YGGR",(-3004280),12113762,1244,"AU");
("YGGS",(-1971017),14436399,2525,"AU");
("YGHG",(-1825189),14512507,2155,"AU");
("YGIB",(-1641983),12644019,1669,"AU");
("YGID",(-2727417),11939131,1714,"AU");
("YGIF",(-2404418),11621422,1056,"AU");
("YGIG",(-3146661),11585329,249,"AU");
("YGIL",(-3169135),14863435,1050,"AU");
("YGIR",(-2268320),11436934,70,"AU");
("YGKL",(-2318200),15093786,85,"AU");
("YGLA",(-2386694),15121695,64,"AU");
("YGLB",(-3481320),14972150,2141,"AU");
("YGLC",(-3162089),14819321,733,"AU");
("YGLD",(-3097817),13577649,512,"AU");
("YGLE",(-2480471),13959978,277,"AU");
("YGLG",(-3822778),14433252,118,"AU");
("YGLI",(-2967317),15167955,3433,"AU");
("YGLN",(-3225826),13864088,1605,"AU");
("YGLO",(-2288956),13881829,519,"AU");
("YGLR",(-1731070),12606870,874,"AU");
("YGLS",(-2503573),12828652,1904,"AU");
("YGLX",(-4322939),14699692,664,"AU");
("YGMD",(-1209567),13367642,67,"AU");
("YGMG",(-1205408),13475897,97,"AU");
("YGMP",(-3705068),14226421,743,"AU");
("YGMW",(-1264663),13406768,251,"AU");
("YGNA",(-2008485),14035870,479,"AU");
("YGNF",(-3399823),14813827,1114,"AU");
("YGNV",(-1899297),14501002,1473,"AU");
("YGNW",(-3397512),11800652,907,"AU");
("YGOM",(-3136172),11688679,825,"AU");
("YGON",(-1977262),13939867,878,"AU");
("YGOR",(-1548061),13317264,640,"AU");
("YGPA",(-1346890),13226599,349,"AU");
("YGPE",(-2261656),14994522,30,"AU");
("YGPI",(-2329120),11914040,2397,"AU");
("YGPT",(-1140379),13042205,89,"AU");
("YGRK",(-1214529),13555981,48,"AU");
("YGRL",(-3784202),14799656,260,"AU");
("YGRN",(-2293515),14934015,341,"AU");
("YGRP",(-2567059),12136205,1748,"AU");
("YGRS",(-2875489),12243392,1451,"AU");
("YGRT",(-3684677),14493152,481,"AU");
("YGRU",(-1808275),14540254,2115,"AU");
("YGSC",(-2505105),11519815,489,"AU");
("YGTA",(-1275983),13656681,50,"AU");
("YGTE",(-1397104),13645008,52,"AU");
("YGTH",(-3425648),14605383,439,"AU");
("YGTJ",(-1224980),13380091,337,"AU");
("YGTN",(-1830504),14352590,995,"AU");
("YGTO",(-4108003),14683304,131,"AU");
("YGUB",(-1232628),13398905,113,"AU");
("YGUL",(-2864582),11630472,1034,"AU");
("YGUM",(-1259180),13622545,50,"AU");
("YGUW",(-1794689),14516387,2027,"AU");
("YGWA",(-3548454),13874275,104,"AU");
("YGWD",(-2518135),14268869,434,"AU");
("YGYM",(-2628458),15269927,260,"AU");
("YHAA",(-2344840),13184626,2269,"AU");
("YHAB",(-2010115),14844432,36,"AU");
("YHAC",(-1357503),13141592,364,"AU");
("YHAE",(-3456281),14838817,1432,"AU");
("YHAF",(-3495530),14753131,885,"AU");
("YHAG",(-3100671),12607038,579,"AU");
("YHAW",(-3186035),13846774,1052,"AU");
("YHAY",(-3453742),14482397,305,"AU");
("YHAZ",(-2705053),15305095,20,"AU");
("YHBA",(-2531562),15287130,60,"AU");
("YHBD",(-2303439),13923579,439,"AU");
("YHBK",(-3568256),14731819,875,"AU");
("YHBR",(-1648948),13062473,396,"AU");
("YHBY",(-2458200),13323067,1401,"AU");
("YHCS",(-1895384),13806256,810,"AU");
("YHDD",(-1521884),13406817,213,"AU");
("YHDY",(-2130873),13829547,609,"AU");
("YHEC",(-2776582),15333369,10,"AU");
("YHEG",(-1745533),13834256,251,"AU");
("YHEL",(-1568465),14520918,460,"AU");
("YHEW",(-2322677),15059597,114,"AU");
("YHEY",(-4110098),14598135,539,"AU");
("YHFD",(-1673323),13350074,769,"AU");
("YHGR",(-2444163),13370138,1457,"AU");
("YHGS",(-3071667),12951500,465,"AU");
("YHHY",(-1642172),14314104,323,"AU");
("YHID",(-1058097),14228874,43,"AU");
("YHIL",(-2171852),11943582,957,"AU");
("YHIV",(-1654518),13290291,865,"AU");
("YHKI",(-1198153),14326525,49,"AU");
("YHKT",(-2293603),13544378,1440,"AU");
("YHLC",(-1824091),12766138,1346,"AU");
("YHLD",(-2050215),14023842,681,"AU");
("YHLM",(-3327044),11681566,847,"AU");
("YHLN",(-1843748),13387797,963,"AU");
("YHLS",(-3349610),14551707,403,"AU");
("YHMB",(-2392423),13280254,1945,"AU");
("YHMD",(-2140349),14239950,605,"AU");
("YHML",(-3764136),14206197,802,"AU");
("YHMT",(-2672159),13507096,568,"AU");
("YHMY",(-2228182),11766457,1952,"AU");
("YHOA",(-1209436),13535981,34,"AU");
("YHOL",(-1416054),14267408,475,"AU");
("YHON",(-3175950),14066256,419,"AU");
("YHOO",(-1833345),13063524,1037,"AU");
("YHOT",(-3704451),14732832,4260,"AU");
("YHPE",(-3389708),12016094,70,"AU");
("YHPN",(-3572058),14235805,256,"AU");
("YHPV",(-1529128),14509900,208,"AU");
("YHRD",(-2899625),14444742,600,"AU");
("YHSC",(-1376677),13579802,46,"AU");
("YHSL",(-2534203),11861646,1667,"AU");
("YHSM",(-3666905),14217064,445,"AU");
("YHTA",(-3213599),13511011,623,"AU");
("YHTF",(-3517104),13849133,8,"AU");
("YHTL",(-1173523),14257083,418,"AU");
("YHTN",(-1742592),14539593,2983,"AU");
("YHTR",(-4052362),14474134,100,"AU");
("YHTS",(-2298444),13491740,2001,"AU");
("YHUG",(-2080828),14421866,1043,"AU");
("YHVH",(-2069794),14664420,613,"AU");
("YICE",(-4086253),14814069,108,"AU");
("YIDK",(-2696204),13331513,1316,"AU");
("YIDR",(-2505997),13373419,1188,"AU");
("YIFF",(-2223248),14842875,574,"AU");
("YIFL",(-1755422),14600715,46,"AU");
("YIFY",(-1889563),14120838,140,"AU")].
(** openap/data/nav/airports.csv:12502-13001 *)
Definition apts25 : list apt := [
("YIGM",(-1866825),14613898,49,"AU");
("YIGR",(-2962360),13478472,509,"AU");
("YIKL",(-2275327),13616134,1160,"AU");
("YIKM",(-1622878),14142896,20,"AU");
("YILA",(-3646055),14643105,500,"AU");
("YILF",(-2349960),14451436,680,"AU");
("YILW",(-2841758),15109052,933,"AU");
("YIMA",(-2513461),13256591,1663,"AU");
("YIMB",(-3309856),13646077,764,"AU");
("YIMP",(-2515885),13357169,1280,"AU");
("YIMT",(-2774147),14074518,268,"AU");
("YIMY",(-1546329),14328339,451,"AU");
("YING",(-2500009),14832808,1067,"AU");
("YINJ",(-2584645),14854617,1317,"AU");
("YINN",(-2769796),14073325,178,"AU");
("YINO",(-2977411),15117084,2282,"AU");
("YINV",(-1800767),14052664,75,"AU");
("YINW",(-1783681),12963877,1342,"AU");
("YISD",(-2421312),14462101,724,"AU");
("YISF",(-2425407),14442068,694,"AU");
("YISV",(-1537847),13126672,741,"AU");
("YITT",(-3651091),14735935,820,"AU");
("YIVL",(-2987895),15114326,2666,"AU");
("YIVO",(-3288123),14431035,330,"AU");
("YJAB",(-1265751),13288761,84,"AU");
("YJAM",(-2586809),12767809,1768,"AU");
("YJBO",(-3785745),14691355,317,"AU");
("YJBR",(-2696014),15123205,1240,"AU");
("YJBY",(-3514167),15069498,200,"AU");
("YJCO",(-4236805),14733532,1389,"AU");
("YJDA",(-2484314),14305929,476,"AU");
("YJED",(-2508923),14354886,525,"AU");
("YJEM",(-3340869),14765725,714,"AU");
("YJER",(-3537801),14572066,358,"AU");
("YJEY",(-2941072),12126779,1348,"AU");
("YJGP",(-3391370),11889776,1049,"AU");
("YJIB",(-1228938),13462535,59,"AU");
("YJIG",(-2336588),12075863,1726,"AU");
("YJIN",(-3642629),14859566,3375,"AU");
("YJIR",(-1205482),13461477,33,"AU");
("YJLC",(-2066637),14171198,404,"AU");
("YJNB",(-3030769),11505342,49,"AU");
("YJNK",(-2292806),13573042,1274,"AU");
("YJNY",(-1650991),14438734,716,"AU");
("YJOH",(-3580872),13773551,70,"AU");
("YJRK",(-1788838),14581859,100,"AU");
("YJRO",(-2359050),14613193,1152,"AU");
("YJRX",(-2833844),12198687,2346,"AU");
("YJSR",(-1150936),13102149,29,"AU");
("YJST",(-3318641),13861433,1532,"AU");
("YJUK",(-2436360),12873540,1510,"AU");
("YJUN",(-2642298),12056750,1845,"AU");
("YJVM",(-2264645),13626353,1165,"AU");
("YJVS",(-2291031),13611793,1102,"AU");
("YJWB",(-1573142),14426917,536,"AU");
("YKAE",(-3035701),11711879,1069,"AU");
("YKAJ",(-2002867),14003019,509,"AU");
("YKAL",(-1428674),12662942,66,"AU");
("YKAN",(-3089362),12486078,636,"AU");
("YKAP",(-3424422),13891252,1193,"AU");
("YKAR",(-2918274),11684252,350,"AU");
("YKAT",(-3366894),15031692,3232,"AU");
("YKAY",(-3068109),14253634,598,"AU");
("YKBG",(-3083743),11952697,1197,"AU");
("YKBL",(-3118515),12159529,1057,"AU");
("YKBN",(-2808510),15283995,314,"AU");
("YKBO",(-3100653),12658130,559,"AU");
("YKBR",(-2769942),11425922,514,"AU");
("YKBS",(-1740318),12435248,196,"AU");
("YKBY",(-3283249),13428716,69,"AU");
("YKCA",(-2425639),13148392,2067,"AU");
("YKCH",(-3102912),12418049,654,"AU");
("YKCK",(-3984769),14785174,100,"AU");
("YKCS",(-2441881),13181166,2021,"AU");
("YKCY",(-2697086),15256276,382,"AU");
("YKDI",(-3397223),13765416,138,"AU");
("YKDL",(-3202015),13486194,499,"AU");
("YKDM",(-1611701),13094749,290,"AU");
("YKDN",(-3247110),11826986,986,"AU");
("YKEB",(-3161546),11771329,849,"AU");
("YKEL",(-3081870),15035158,1018,"AU");
("YKEN",(-2633583),13247056,1995,"AU");
("YKEP",(-3089152),15052598,1150,"AU");
("YKER",(-3574787),14393419,254,"AU");
("YKEY",(-2949263),14951030,600,"AU");
("YKGA",(-3090167),13530500,491,"AU");
("YKHA",(-3621262),14810954,966,"AU");
("YKIA",(-1724178),13617773,742,"AU");
("YKIB",(-1670222),12383473,172,"AU");
("YKIC",(-2281237),12772602,1422,"AU");
("YKID",(-1887236),14417126,1620,"AU");
("YKIG",(-3682423),13986754,11,"AU");
("YKII",(-3987343),14387028,131,"AU");
("YKIL",(-1642592),12961321,289,"AU");
("YKIN",(-3246866),14234132,221,"AU");
("YKIR",(-1778643),12920986,1359,"AU");
("YKIU",(-2308544),14943466,478,"AU");
("YKJN",(-1588495),14350676,470,"AU");
("YKKG",(-1743302),13080709,646,"AU");
("YKKH",(-3127722),13523558,512,"AU");
("YKKN",(-3437862),11632412,406,"AU");
("YKLA",(-1592193),14243156,163,"AU");
("YKLB",(-1532183),14395209,317,"AU");
("YKLE",(-1624570),13174350,633,"AU");
("YKLG",(-1520817),14384177,279,"AU");
("YKLI",(-1613096),12377620,458,"AU");
("YKLL",(-2175788),13888775,725,"AU");
("YKLN",(-1542687),14349761,533,"AU");
("YKLP",(-2377154),14475373,820,"AU");
("YKLR",(-2771552),13826078,30,"AU");
("YKMB",(-1745626),14082983,18,"AU");
("YKML",(-1936092),14004705,300,"AU");
("YKMN",(-2737053),14192816,327,"AU");
("YKMP",(-3107651),15275833,54,"AU");
("YKNA",(-2653090),12561133,1587,"AU");
("YKNC",(-1384831),14158703,30,"AU");
("YKNG",(-3370048),11765809,950,"AU");
("YKNM",(-2626699),11778807,1506,"AU");
("YKNP",(-3111999),11789990,929,"AU");
("YKNT",(-2326470),12937206,1506,"AU");
("YKOJ",(-3375598),11713384,907,"AU");
("YKOK",(-2935000),12148333,1416,"AU");
("YKOL",(-3241695),13629296,675,"AU");
("YKOW",(-1548229),14174687,35,"AU");
("YKPG",(-1257179),13232546,114,"AU");
("YKPI",(-1668015),14478312,936,"AU");
("YKPN",(-4253310),14719341,683,"AU");
("YKPR",(-1488787),14421581,82,"AU");
("YKRE",(-3096974),12253803,1167,"AU");
("YKRJ",(-1626739),12718592,1064,"AU");
("YKRK",(-2868503),11775305,1167,"AU");
("YKRL",(-2590719),14279751,451,"AU");
("YKRV",(-1374950),14213077,120,"AU");
("YKRW",(-2250220),14913529,559,"AU");
("YKRY",(-2657243),15183802,1492,"AU");
("YKSC",(-3572114),13752289,24,"AU");
("YKTH",(-3610585),14023761,96,"AU");
("YKTN",(-3722646),14444766,1650,"AU");
("YKUB",(-1022449),14221561,14,"AU");
("YKUL",(-2584427),13328633,1680,"AU");
("YKUP",(-2719316),15111140,1089,"AU");
("YKUR",(-2050546),13466884,1329,"AU");
("YKUT",(-2584446),13339178,1647,"AU");
("YKUW",(-3804690),14314722,525,"AU");
("YKUY",(-2821968),14857552,635,"AU");
("YKVA",(-1571201),14374166,642,"AU");
("YKWG",(-3177898),13563340,686,"AU");
("YKYB",(-3633480),14496606,370,"AU");
("YKYN",(-2160056),14193944,666,"AU");
("YKYW",(-2225476),14361043,777,"AU");
("YLAB",(-2682197),15297396,102,"AU");
("YLAE",(-1311033),13049434,119,"AU");
("YLAG",(-4288860),14795230,9,"AU");
("YLAH",(-1857049),13863284,400,"AU");
("YLAK",(-2068418),14862633,175,"AU");
("YLAM",(-2692285),13405174,912,"AU");
("YLAN",(-3143717),14213616,445,"AU");
("YLAO",(-3537307),14045755,302,"AU");
("YLAP",(-2802854),15002231,874,"AU");
("YLAQ",(-2060971),14865332,85,"AU");
("YLAW",(-2809002),12052812,1600,"AU");
("YLBD",(-1651383),12291815,138,"AU");
("YLBG",(-2324471),13125285,2031,"AU");
("YLCG",(-3328553),14636936,555,"AU");
("YLCK",(-1939091),14584851,1095,"AU");
("YLCS",(-3682065),14534591,540,"AU");
("YLDB",(-4019602),14823686,43,"AU");
("YLDG",(-4020562),14823142,10,"AU");
("YLDL",(-1666306),12858809,356,"AU");
("YLDN",(-2595041),15054294,994,"AU");
("YLDO",(-2511382),11694044,1212,"AU");
("YLDS",(-2220152),13870455,545,"AU");
("YLEA",(-2997373),11498040,14,"AU");
("YLEC",(-3059571),13842402,856,"AU");
("YLED",(-3791967),14409663,787,"AU");
("YLEE",(-3449053),14643954,479,"AU");
("YLEG",(-3849912),14585706,263,"AU");
("YLEM",(-4232185),14761652,1268,"AU");
("YLEO",(-2888912),12130609,1217,"AU");
("YLEV",(-1249837),13580128,256,"AU");
("YLFD",(-1492316),14419900,98,"AU");
("YLGA",(-2210518),11846771,1355,"AU");
("YLGB",(-1868666),12180552,97,"AU");
("YLGC",(-3310545),11838265,926,"AU");
("YLGD",(-4168630),14714148,522,"AU");
("YLGL",(-2248568),14666432,790,"AU");
("YLGN",(-3093734),12701760,598,"AU");
("YLGU",(-1521419),12944418,85,"AU");
("YLHI",(-3153676),15907174,16,"AU");
("YLHR",(-1278228),14329860,77,"AU");
("YLHS",(-1918855),14436987,1957,"AU");
("YLIL",(-3769854),14536644,237,"AU");
("YLIM",(-1723413),12987729,1218,"AU");
("YLIS",(-2882400),15325519,35,"AU");
("YLIT",(-1342953),13049459,57,"AU");
("YLJN",(-3232316),12054570,1000,"AU");
("YLJY",(-3637425),14860015,3154,"AU");
("YLKD",(-1890125),14498678,1429,"AU");
("YLKE",(-3785205),14794858,198,"AU");
("YLKN",(-2097593),13791461,636,"AU");
("YLKS",(-3171079),15272445,1,"AU");
("YLLA",(-2979407),13334551,600,"AU");
("YLLC",(-2550404),13399632,1132,"AU");
("YLLE",(-2741188),14180359,385,"AU");
("YLLL",(-3445621),13852497,145,"AU");
("YLLT",(-3451753),13842495,55,"AU");
("YLMA",(-1324600),13584300,39,"AU");
("YLMB",(-3110526),14993869,1010,"AU");
("YLMR",(-3637835),14108085,413,"AU");
("YLMU",(-3374325),14300100,279,"AU");
("YLND",(-1583503),14484710,905,"AU");
("YLNR",(-2492993),11696188,1331,"AU");
("YLOC",(-2074656),12098432,589,"AU");
("YLOD",(-3681149),14546310,619,"AU");
("YLOH",(-3053087),14512269,350,"AU");
("YLOK",(-3354518),13568647,384,"AU");
("YLOO",(-2269260),11623249,520,"AU");
("YLOR",(-1897963),13989894,200,"AU");
("YLOU",(-1871218),12670415,822,"AU");
("YLOV",(-1704821),14137215,57,"AU");
("YLOX",(-3446869),14066333,125,"AU");
("YLPS",(-4110025),14518307,600,"AU");
("YLRA",(-1555606),14444863,327,"AU");
("YLRD",(-2945049),14796966,539,"AU");
("YLRE",(-2343764),14427244,627,"AU");
("YLRG",(-2622857),12155108,1657,"AU");
("YLRN",(-1900502),13989512,208,"AU");
("YLRS",(-1518065),14434132,151,"AU");
("YLSM",(-3792711),14334220,654,"AU");
("YLST",(-2784266),12069519,1631,"AU");
("YLSY",(-2703926),12989786,1988,"AU");
("YLTH",(-4153292),14688336,554,"AU");
("YLTN",(-2861675),12242106,1530,"AU");
("YLTT",(-2411565),15271533,6,"AU");
("YLTV",(-3820996),14647008,179,"AU");
("YLUC",(-2246596),13627212,1083,"AU");
("YLUI",(-3697227),14034273,89,"AU");
("YLUL",(-3163855),14051197,344,"AU");
("YLUN",(-2325402),14955447,270,"AU");
("YLUW",(-3401706),11504563,278,"AU");
("YLVA",(-1448897),14367503,87,"AU");
("YLVD",(-3173501),13502701,459,"AU");
("YLVY",(-3272581),11950393,1165,"AU");
("YLWY",(-2694269),12047135,1640,"AU");
("YLYD",(-2682922),15122518,1286,"AU");
("YLYH",(-3026886),13836219,482,"AU");
("YLYN",(-2363742),11523431,730,"AU");
("YLZI",(-1466982),14545097,70,"AU");
("YMAA",(-994819),14219448,29,"AU");
("YMAC",(-2726681),13563556,354,"AU");
("YMAD",(-3188788),12701895,326,"AU");
("YMAE",(-991288),14405308,329,"PG");
("YMAG",(-3504674),14286003,182,"AU");
("YMAI",(-2898460),13439097,659,"AU");
("YMAJ",(-1223831),13406261,73,"AU");
("YMAK",(-2893019),13432777,551,"AU");
("YMAL",(-3076420),15072353,1194,"AU");
("YMAP",(-1225464),13543966,101,"AU");
("YMAR",(-1492043),13304498,468,"AU");
("YMAU",(-2429442),11689122,1273,"AU");
("YMAV",(-3802725),14446941,35,"AU");
("YMAW",(-2240553),14892621,426,"AU");
("YMAX",(-1459342),13218429,451,"AU");
("YMAY",(-3606808),14694892,539,"AU");
("YMBA",(-1706781),14541727,1560,"AU");
("YMBD",(-3506843),13922400,180,"AU");
("YMBE",(-3134147),11601156,610,"AU");
("YMBL",(-2116349),11982487,637,"AU");
("YMBN",(-1285185),13157237,82,"AU");
("YMBO",(-2330790),14344027,723,"AU");
("YMBP",(-3387331),12261036,174,"AU");
("YMBR",(-2826369),13414788,908,"AU");
("YMBT",(-3672735),14716613,1107,"AU");
("YMBU",(-3703291),14370862,766,"AU");
("YMBZ",(-2516676),13263828,1571,"AU");
("YMCE",(-2509014),11758911,1377,"AU");
("YMCF",(-2734689),15151143,1210,"AU");
("YMCK",(-2128541),14129687,578,"AU");
("YMCL",(-2138950),14732592,785,"AU");
("YMCO",(-3760382),14972010,102,"AU");
("YMCR",(-2209302),13798244,614,"AU");
("YMCS",(-2001549),14647347,870,"AU");
("YMCT",(-3758350),14035973,56,"AU");
("YMCW",(-1820202),12748934,1406,"AU");
("YMDA",(-2559509),15131832,400,"AU");
("YMDB",(-2051432),11805870,38,"AU");
("YMDD",(-2970714),13822829,262,"AU");
("YMDE",(-2166332),14051618,1110,"AU");
("YMDG",(-3256962),14960191,1545,"AU");
("YMDI",(-1973587),12083314,32,"AU");
("YMDK",(-2303989),13469467,1985,"AU");
("YMDN",(-3152044),11832207,1300,"AU");
("YMDO",(-3609009),14498383,320,"AU");
("YMDR",(-2199382),11504451,75,"AU");
("YMDS",(-2246203),13523863,1486,"AU");
("YMDT",(-3182143),12822825,46,"AU");
("YMDV",(-2617193),12912885,2067,"AU");
("YMDW",(-1622066),14469986,1594,"AU");
("YMDX",(-1976505),14037948,385,"AU");
("YMDY",(-1288697),13190369,150,"AU");
("YMDZ",(-2119005),11598391,49,"AU");
("YMEB",(-3017986),13566879,522,"AU");
("YMED",(-3237243),14240142,240,"AU");
("YMEE",(-1681559),13632670,632,"AU");
("YMEG",(-3570074),13934511,13,"AU");
("YMEI",(-2397580),13155887,2410,"AU");
("YMEK",(-2660914),11853510,1713,"AU");
("YMEL",(-3762005),14455993,670,"AU");
("YMEN",(-3772031),14490076,281,"AU");
("YMEO",(-3696558),14570507,1105,"AU");
("YMEP",(-1372815),14241026,287,"AU");
("YMEQ",(-2273640),14331148,883,"AU");
("YMER",(-3691285),14989662,6,"AU");
("YMES",(-3810601),14713845,22,"AU");
("YMEU",(-1306449),14244824,279,"AU");
("YMEW",(-2926340),11544305,1007,"AU");
("YMFD",(-3706771),14611799,1050,"AU");
("YMGB",(-1209216),13488735,53,"AU");
("YMGD",(-1205255),13423270,122,"AU");
("YMGE",(-1193721),13282017,68,"AU");
("YMGF",(-3425142),14205503,164,"AU");
("YMGG",(-3023171),13398571,690,"AU");
("YMGI",(-2896325),14904763,600,"AU");
("YMGJ",(-1265192),13519154,49,"AU");
("YMGL",(-1745430),14116372,28,"AU");
("YMGM",(-1781977),13454834,779,"AU");
("YMGN",(-3145973),13716510,344,"AU");
("YMGO",(-2737305),11641044,1007,"AU");
("YMGR",(-1862385),12687486,949,"AU");
("YMGS",(-2878496),12203483,1403,"AU");
("YMGT",(-3393530),11509835,374,"AU");
("YMGV",(-1478189),14350416,275,"AU");
("YMHA",(-2101215),13939689,1222,"AU");
("YMHB",(-4282901),14750207,12,"AU");
("YMHE",(-2602679),11733127,1321,"AU");
("YMHL",(-3210906),11975912,1489,"AU");
("YMHN",(-2311728),14474369,736,"AU");
("YMHO",(-1704671),12571681,948,"AU");
("YMHT",(-1682848),12491137,644,"AU");
("YMHU",(-1644413),13607684,131,"AU");
("YMHW",(-2649725),14228136,345,"AU");
("YMIA",(-3422639),14207386,166,"AU");
("YMIB",(-2733308),13329689,1200,"AU");
("YMIG",(-3445173),15049098,1889,"AU");
("YMIJ",(-1116267),13253453,39,"AU");
("YMIN",(-3473685),13752620,108,"AU");
("YMIO",(-2332341),15069645,183,"AU");
("YMIP",(-1479406),12581853,1077,"AU");
("YMIR",(-1732674),14188111,174,"AU");
("YMIS",(-2638854),12097984,1824,"AU");
("YMIT",(-2648350),14793699,1144,"AU");
("YMIU",(-2326789),14527374,806,"AU");
("YMIV",(-3244029),13606837,575,"AU");
("YMIX",(-2390603),11476057,432,"AU");
("YMJD",(-1884092),12491974,392,"AU");
("YMJE",(-2463519),11693878,1466,"AU");
("YMJM",(-3426330),11613432,940,"AU");
("YMKA",(-1492486),13313331,424,"AU");
("YMKB",(-3091677),11824863,974,"AU");
("YMKC",(-1708981),12904261,510,"AU");
("YMKT",(-1261156),13104660,69,"AU");
("YMKV",(-1247923),13306469,66,"AU");
("YMLA",(-2088307),11803271,175,"AU");
("YMLD",(-3438622),13770779,545,"AU");
("YMLE",(-1958193),14525595,1513,"AU");
("YMLI",(-2490331),11421135,171,"AU");
("YMLK",(-1818364),14508988,2169,"AU");
("YMLL",(-1985240),14155392,336,"AU");
("YMLN",(-3020034),14321115,456,"AU");
("YMLO",(-2001041),14724464,148,"AU");
("YMLR",(-2923966),13790703,47,"AU");
("YMLS",(-2681077),15016336,996,"AU");
("YMLT",(-4153706),14720387,562,"AU");
("YMLV",(-1406188),12990969,45,"AU");
("YMMA",(-1225669),13365261,110,"AU");
("YMMB",(-3797177),14509930,50,"AU");
("YMMH",(-1637686),14398531,531,"AU");
("YMMI",(-2871237),12188409,1535,"AU");
("YMML",(-3765287),14483484,433,"AU");
("YMMN",(-2785551),15126804,1312,"AU");
("YMMR",(-1247212),13248884,40,"AU");
("YMMT",(-2691267),14331913,566,"AU");
("YMMU",(-2279780),14869856,547,"AU");
("YMMY",(-1253946),13410899,133,"AU");
("YMNA",(-2226921),13220975,2251,"AU");
("YMNB",(-2823290),13496854,404,"AU");
("YMND",(-3270061),15149078,85,"AU");
("YMNE",(-2728369),12054574,1792,"AU");
("YMNF",(-2644777),11654102,1026,"AU");
("YMNG",(-3689576),14518732,467,"AU");
("YMNK",(-2481611),14055513,350,"AU");
("YMNL",(-1154902),13291284,57,"AU");
("YMNN",(-2213402),13206623,2149,"AU");
("YMNO",(-2337175),14389064,624,"AU");
("YMNP",(-2959058),13905241,312,"AU");
("YMNS",(-2257948),13502656,1649,"AU");
("YMNT",(-1739180),12622076,955,"AU");
("YMNU",(-1404996),13409064,359,"AU");
("YMNX",(-2891680),12179600,1383,"AU");
("YMNY",(-2535622),14142734,340,"AU");
("YMOE",(-3196523),13587331,548,"AU");
("YMOF",(-2120411),14379424,924,"AU");
("YMOG",(-2810772),11783703,1354,"AU");
("YMOM",(-3506392),14401671,235,"AU");
("YMOO",(-2524546),14097135,280,"AU");
("YMOR",(-2950625),14984299,701,"AU");
("YMOT",(-1243934),14263487,158,"AU");
("YMOU",(-2460245),14999299,482,"AU");
("YMOY",(-2507957),14288878,446,"AU");
("YMPA",(-3283214),13514401,509,"AU");
("YMPC",(-3792440),14475189,14,"AU");
("YMPE",(-2051954),14678876,832,"AU");
("YMPK",(-2335522),13299657,2080,"AU");
("YMPN",(-1204740),14190449,51,"AU");
("YMPS",(-2908771),14617835,465,"AU");
("YMQA",(-2280274),13724605,887,"AU");
("YMRA",(-3015187),13162504,842,"AU");
("YMRB",(-2205136),14807536,770,"AU");
("YMRD",(-3018090),11929621,1435,"AU");
("YMRE",(-2966761),13806125,164,"AU");
("YMRG",(-2625107),15192749,1019,"AU");
("YMRL",(-1283795),13391775,800,"AU");
("YMRN",(-1212558),13385481,221,"AU");
("YMRS",(-2793082),12130069,1535,"AU");
("YMRT",(-1770547),14514310,2159,"AU");
("YMRV",(-3100950),11680674,876,"AU");
("YMRW",(-2920267),11601807,886,"AU");
("YMRX",(-2350112),11553838,773,"AU");
("YMRY",(-3590227),15014493,14,"AU");
("YMSE",(-1951596),13836573,838,"AU");
("YMSF",(-1697322),13055154,759,"AU");
("YMSP",(-1813536),14428370,1443,"AU");
("YMSS",(-2688478),11595469,956,"AU");
("YMST",(-2162647),11707594,1011,"AU");
("YMSW",(-2244299),11604042,489,"AU");
("YMSX",(-1193232),13508123,47,"AU");
("YMTA",(-1880064),13708068,863,"AU");
("YMTB",(-2258996),14451975,753,"AU");
("YMTC",(-2882829),13434882,722,"AU");
("YMTD",(-1605328),14450870,1131,"AU");
("YMTG",(-3774584),14077940,212,"AU");
("YMTI",(-1666052),13916301,33,"AU");
("YMTJ",(-1664907),13175767,573,"AU");
("YMTM",(-1207603),13626550,42,"AU");
("YMTN",(-2451839),15000863,417,"AU");
("YMTO",(-2488648),15110016,757,"AU");
("YMTS",(-3353121),11994288,1007,"AU");
("YMTW",(-3146575),13910711,564,"AU");
("YMTX",(-2605108),13524241,515,"AU");
("YMTZ",(-1640658),12610987,1858,"AU");
("YMUA",(-2488626),15191149,159,"AU");
("YMUC",(-2065983),12006148,307,"AU");
("YMUD",(-1437941),13239241,393,"AU");
("YMUE",(-1209833),13289000,135,"AU");
("YMUG",(-2800264),13865576,193,"AU");
("YMUH",(-1216035),13617182,29,"AU");
("YMUJ",(-2236144),11867629,1500,"AU");
("YMUK",(-2834447),13864475,177,"AU");
("YMUL",(-3251177),11583713,90,"AU");
("YMUM",(-1236048),13413692,99,"AU");
("YMUN",(-1380652),13442783,248,"AU");
("YMUP",(-2586117),13164507,2008,"AU");
("YMUR",(-2833737),15341089,19,"AU");
("YMUS",(-2440846),14724122,1088,"AU");
("YMUX",(-2635609),11733722,1329,"AU");
("YMUY",(-1863396),13392574,984,"AU");
("YMVG",(-2597421),13320808,1746,"AU");
("YMVH",(-3147002),11952587,1429,"AU");
("YMVM",(-3329035),15121074,1027,"AU");
("YMVN",(-2640174),14711952,1444,"AU");
("YMVY",(-1408398),13380947,486,"AU");
("YMWA",(-2847870),11551173,950,"AU");
("YMWC",(-2046563),14747742,279,"AU");
("YMWE",(-2273577),13215342,1857,"AU");
("YMWM",(-4090094),14816839,235,"AU");
("YMWN",(-2438637),14832223,858,"AU");
("YMWO",(-3171277),13642648,469,"AU");
("YMWR",(-3195743),11618521,823,"AU");
("YMWT",(-2990666),13975998,262,"AU");
("YMWX",(-2336122),13964677,413,"AU");
("YMXC",(-1155815),13057973,102,"AU");
("YMYA",(-1266171),13477409,155,"AU");
("YMYB",(-2550643),15271283,37,"AU");
("YMYH",(-1696078),13577541,640,"AU");
("YMYI",(-2509758),11975736,2105,"AU");
("YMYP",(-1159352),13607943,20,"AU");
("YMYR",(-1812394),12426545,178,"AU");
("YMYT",(-2858812),14030061,108,"AU");
("YMYU",(-3379624),12194932,43,"AU");
("YMYV",(-2464539),13402154,1266,"AU");
("YMYW",(-2104323),13468427,1348,"AU");
("YMYY",(-1504941),14375293,224,"AU");
("YMZI",(-2968147),12102466,1414,"AU");
("YNAA",(-3067620),15298219,6,"AU");
("YNAB",(-1230416),13330402,269,"AU");
("YNAL",(-1253897),13517398,255,"AU");
("YNAM",(-1216359),13401816,181,"AU");
("YNAN",(-2669266),15198370,1194,"AU");
("YNAP",(-2755046),14115807,180,"AU");
("YNAR",(-3469331),14650546,472,"AU")].
(** openap/data/nav/airports.csv:13002-13501 *)
Definition apts26 : list apt := [
("YNAT",(-1558590),13542779,162,"AU");
("YNAU",(-3402587),11573619,498,"AU");
("YNBH",(-2409401),14315586,574,"AU");
("YNBR",(-3032753),14982394,788,"AU");
("YNCD",(-2780669),14259245,320,"AU");
("YNCS",(-2567602),13483322,731,"AU");
("YNCW",(-1737473),13339846,691,"AU");
("YNDG",(-3310119),11901546,1061,"AU");
("YNDR",(-3179996),13221594,98,"AU");
("YNDS",(-2108974),14614630,732,"AU");
("YNDW",(-2422437),14761401,986,"AU");
("YNES",(-1729241),12926862,843,"AU");
("YNGB",(-3673964),14512415,450,"AU");
("YNGT",(-1256189),13426784,203,"AU");
("YNGU",(-1472063),13474120,45,"AU");
("YNHL",(-3630952),14164170,454,"AU");
("YNHM",(-3168072),11661950,964,"AU");
("YNHP",(-2834434),11471163,916,"AU");
("YNHV",(-2272490),13114393,1827,"AU");
("YNIC",(-1804595),12889902,1289,"AU");
("YNIG",(-3252345),13649267,661,"AU");
("YNKA",(-1848481),12484869,266,"AU");
("YNLD",(-3468664),13966516,185,"AU");
("YNLH",(-1761319),12674000,1185,"AU");
("YNMN",(-1920703),14576803,1087,"AU");
("YNMY",(-2058492),13933821,1283,"AU");
("YNNG",(-3806677),14557390,148,"AU");
("YNNM",(-3017028),14389400,363,"AU");
("YNNR",(-3777802),14301991,768,"AU");
("YNNT",(-2253436),11548229,268,"AU");
("YNOB",(-2829979),15332514,68,"AU");
("YNOC",(-2771959),14270326,370,"AU");
("YNOF",(-1931794),13833328,790,"AU");
("YNOO",(-2804260),14355802,399,"AU");
("YNOR",(-2867087),14636482,506,"AU");
("YNPA",(-2848650),13591167,563,"AU");
("YNPB",(-2252864),13275949,2129,"AU");
("YNPD",(-1731619),12481536,272,"AU");
("YNPE",(-1093816),14244774,33,"AU");
("YNPJ",(-3257930),11588026,25,"AU");
("YNPU",(-3060074),13889457,1886,"AU");
("YNQI",(-3089868),14095446,217,"AU");
("YNRB",(-3211469),11840563,1000,"AU");
("YNRC",(-3698828),14072416,169,"AU");
("YNRG",(-3292749),11708291,1080,"AU");
("YNRL",(-2855677),14191634,348,"AU");
("YNRM",(-3221489),14822425,782,"AU");
("YNRN",(-2568464),15085409,970,"AU");
("YNRR",(-2264479),13056550,1732,"AU");
("YNRV",(-3380180),12020039,209,"AU");
("YNSH",(-2642091),15306095,0,"AU");
("YNSM",(-3221568),12175009,863,"AU");
("YNTI",(-2829802),11359445,28,"AU");
("YNTJ",(-2151434),13398771,1585,"AU");
("YNTM",(-3162793),11668647,500,"AU");
("YNTN",(-1768083),14106740,36,"AU");
("YNUB",(-3144076),13090017,220,"AU");
("YNUD",(-2242027),11735588,2020,"AU");
("YNUE",(-2399251),13541867,1017,"AU");
("YNUJ",(-1796828),13796343,368,"AU");
("YNUL",(-2190580),12019390,1257,"AU");
("YNUM",(-1426439),13571162,31,"AU");
("YNUN",(-3080457),14248258,687,"AU");
("YNUR",(-3029915),14949273,660,"AU");
("YNUT",(-1580320),13414477,479,"AU");
("YNVD",(-2060135),14630764,863,"AU");
("YNVE",(-3692229),14308719,750,"AU");
("YNWL",(-3083679),13529670,500,"AU");
("YNWN",(-2342376),11979465,1724,"AU");
("YNWT",(-2322931),13262652,1916,"AU");
("YNWY",(-3068391),14812681,475,"AU");
("YNYG",(-2304084),11505049,383,"AU");
("YNYM",(-3205463),14630850,1012,"AU");
("YNYN",(-3155425),14719530,569,"AU");
("YNYP",(-2617716),13021147,2185,"AU");
("YOAD",(-2536906),13542069,507,"AU");
("YOAF",(-1247397),13495518,34,"AU");
("YOAM",(-3057136),15066003,1393,"AU");
("YOAP",(-1644781),12306286,31,"AU");
("YOAS",(-3408831),15055876,879,"AU");
("YOAY",(-2305048),14849361,581,"AU");
("YOBM",(-2452824),14955285,431,"AU");
("YOBR",(-3196848),15259099,37,"AU");
("YOCR",(-1320835),14302561,608,"AU");
("YODA",(-3045629),13181652,367,"AU");
("YODL",(-2536686),14264227,446,"AU");
("YOEN",(-1232257),13300150,30,"AU");
("YOGD",(-2040272),14318461,787,"AU");
("YOIT",(-2206417),14413364,820,"AU");
("YOKE",(-2229786),14598084,947,"AU");
("YOKH",(-3166440),13705937,315,"AU");
("YOKV",(-2950004),13086681,751,"AU");
("YOLA",(-3828532),14367054,450,"AU");
("YOLD",(-3048734),13686829,343,"AU");
("YOLW",(-2167795),11510827,16,"AU");
("YOLY",(-3100776),14770957,510,"AU");
("YONE",(-2329738),14501485,816,"AU");
("YOOB",(-1676841),12398087,36,"AU");
("YOOD",(-2755792),13543845,386,"AU");
("YOOK",(-3061553),13041011,400,"AU");
("YOOM",(-2809427),14019069,143,"AU");
("YOOO",(-1632934),13149579,489,"AU");
("YOPC",(-1258257),13172871,48,"AU");
("YOPT",(-1232614),13304093,46,"AU");
("YORA",(-3169385),12658827,347,"AU");
("YORB",(-3779007),14860614,92,"AU");
("YORC",(-2495698),15331240,63,"AU");
("YORG",(-3337751),14912377,3114,"AU");
("YORL",(-3378763),12294072,271,"AU");
("YORO",(-1481598),13369654,227,"AU");
("YORP",(-3144324),13873061,2193,"AU");
("YORR",(-3278603),13866746,1358,"AU");
("YORT",(-2190336),13607223,1066,"AU");
("YORU",(-2861690),15111724,977,"AU");
("YORV",(-1734690),12891510,540,"AU");
("YORW",(-2920070),12143392,1343,"AU");
("YOSB",(-2207566),14054997,935,"AU");
("YOSN",(-2382477),15081492,125,"AU");
("YOTN",(-1743946),14464363,1538,"AU");
("YOUN",(-2861332),11884330,1506,"AU");
("YPAC",(-2524428),15254081,16,"AU");
("YPAD",(-3495853),13851720,20,"AU");
("YPAG",(-3249797),13771102,56,"AU");
("YPAJ",(-1070116),14253789,1,"AU");
("YPAL",(-1610593),14477159,1383,"AU");
("YPAM",(-1875105),14657817,29,"AU");
("YPAS",(-2290694),11868766,2386,"AU");
("YPAY",(-2323725),13190306,2035,"AU");
("YPBH",(-3860686),14289917,108,"AU");
("YPBO",(-2317548),11773749,1406,"AU");
("YPCC",(-1218186),9682795,10,"CC");
("YPCE",(-3337564),14258082,164,"AU");
("YPCH",(-3536495),14219394,242,"AU");
("YPCM",(-1175540),13087831,294,"AU");
("YPCS",(-2819614),12042913,1407,"AU");
("YPDA",(-3579926),13726179,540,"AU");
("YPDD",(-1133817),13258839,24,"AU");
("YPDE",(-3366075),13613627,388,"AU");
("YPDI",(-2611751),13940129,121,"AU");
("YPDN",(-1240944),13086528,102,"AU");
("YPDO",(-2010925),11958206,42,"AU");
("YPDY",(-3660681),14050044,133,"AU");
("YPEA",(-3166231),11601355,150,"AU");
("YPEC",(-3306644),15164169,10,"AU");
("YPED",(-3471080),13861668,67,"AU");
("YPEF",(-3751482),14469949,1150,"AU");
("YPEP",(-1414516),13008541,79,"AU");
("YPFT",(-3622492),14915091,2700,"AU");
("YPGH",(-1680182),13121850,370,"AU");
("YPGP",(-2340665),11788093,1283,"AU");
("YPGV",(-1226281),13680979,179,"AU");
("YPHU",(-1169263),13019404,46,"AU");
("YPID",(-3852808),14532189,43,"AU");
("YPIN",(-1569344),14356085,619,"AU");
("YPIR",(-3323813),13799129,39,"AU");
("YPIX",(-2718105),11628291,1000,"AU");
("YPJI",(-2942267),11628049,966,"AU");
("YPJN",(-1597047),12504973,560,"AU");
("YPJT",(-3209997),11587248,99,"AU");
("YPKA",(-2071378),11676530,29,"AU");
("YPKE",(-2824425),13588885,335,"AU");
("YPKG",(-3078828),12145446,1202,"AU");
("YPKH",(-3272732),14821104,943,"AU");
("YPKI",(-3040132),13639240,284,"AU");
("YPKL",(-3700035),14506135,550,"AU");
("YPKS",(-3313723),14823059,1069,"AU");
("YPKT",(-1424373),12952728,91,"AU");
("YPKU",(-1577383),12870173,145,"AU");
("YPLC",(-3461255),13587680,35,"AU");
("YPLD",(-1848335),13928783,212,"AU");
("YPLG",(-3036167),14890515,535,"AU");
("YPLI",(-2944515),15326623,6,"AU");
("YPLM",(-2221920),11409111,19,"AU");
("YPLP",(-3196029),11586497,6,"AU");
("YPLU",(-2532078),11941413,1893,"AU");
("YPMB",(-3205054),13986676,813,"AU");
("YPMH",(-2972530),13552256,564,"AU");
("YPMP",(-1489103),14160610,10,"AU");
("YPMQ",(-3144129),15285831,12,"AU");
("YPNC",(-1382366),13184221,647,"AU");
("YPND",(-2053228),14537759,1374,"AU");
("YPNG",(-3192614),13300122,82,"AU");
("YPNI",(-2653071),12281103,1568,"AU");
("YPNN",(-3525196),14094465,250,"AU");
("YPNW",(-2162648),11631372,661,"AU");
("YPOD",(-3831935),14146284,264,"AU");
("YPOK",(-3672151),14688898,956,"AU");
("YPOO",(-2846741),13419304,884,"AU");
("YPOP",(-2977919),12226148,1191,"AU");
("YPPA",(-2481733),14146530,386,"AU");
("YPPD",(-2037406),11862163,33,"AU");
("YPPF",(-3480377),13863064,57,"AU");
("YPPH",(-3194091),11595929,70,"AU");
("YPPR",(-3063318),14795493,458,"AU");
("YPPS",(-1315707),14277233,403,"AU");
("YPRA",(-3630909),14414009,356,"AU");
("YPRD",(-2987583),15147473,2936,"AU");
("YPRE",(-3146352),14990554,1215,"AU");
("YPRS",(-3563030),13846625,10,"AU");
("YPSH",(-3575862),13795823,493,"AU");
("YPSI",(-4049842),14833740,121,"AU");
("YPTB",(-3299928),13884871,1827,"AU");
("YPTH",(-2310844),14361387,726,"AU");
("YPTJ",(-2461075),12632150,1515,"AU");
("YPTL",(-2413104),14459259,717,"AU");
("YPTN",(-1451220),13236884,443,"AU");
("YPUA",(-1434642),12986368,60,"AU");
("YPUG",(-1672149),13741633,80,"AU");
("YPUK",(-1944499),14641389,1138,"AU");
("YPUN",(-2205194),12314767,841,"AU");
("YPVD",(-2667626),14257800,456,"AU");
("YPVI",(-1600465),14407255,704,"AU");
("YPWF",(-3419022),13815634,26,"AU");
("YPWR",(-3113507),13681387,548,"AU");
("YPXM",(-1044074),10569017,916,"CX");
("YPYD",(-3605618),14412652,295,"AU");
("YPYF",(-2925615),11767544,1136,"AU");
("YQDG",(-3200499),11741384,796,"AU");
("YQDI",(-3150152),15051323,1054,"AU");
("YQLP",(-2660885),14424993,655,"AU");
("YQNS",(-4207419),14552182,866,"AU");
("YQRN",(-3233046),13810594,881,"AU");
("YQUE",(-3032229),14315682,488,"AU");
("YRAG",(-3792006),14373240,590,"AU");
("YRAK",(-1161741),13029228,109,"AU");
("YRAM",(-2613913),14302850,469,"AU");
("YRAT",(-2872156),11378435,12,"AU");
("YRAV",(-3352932),11994284,996,"AU");
("YRAW",(-3101306),12531974,598,"AU");
("YRBB",(-2584770),15306794,32,"AU");
("YRBE",(-3717679),13980411,20,"AU");
("YRBM",(-1718827),13776234,628,"AU");
("YRBN",(-3464617),15063930,1820,"AU");
("YRBR",(-1671300),13694050,249,"AU");
("YRBT",(-2018640),13000655,1119,"AU");
("YRBY",(-1364064),14263806,351,"AU");
("YRDM",(-2197811),11900916,1253,"AU");
("YRDN",(-1712117),14439021,1172,"AU");
("YRDS",(-2057434),14330023,892,"AU");
("YRDY",(-2712183),11827874,1596,"AU");
("YRED",(-2720647),15306448,6,"AU");
("YREN",(-3420037),14065976,115,"AU");
("YRES",(-2521738),14328154,496,"AU");
("YRHL",(-2197164),11605779,491,"AU");
("YRIA",(-1200692),13646477,73,"AU");
("YRID",(-3748106),14471930,1121,"AU");
("YRIM",(-3120212),14792529,568,"AU");
("YRIN",(-1313162),13137252,112,"AU");
("YRIO",(-2754824),15238757,263,"AU");
("YRIS",(-4069212),14502527,60,"AU");
("YRKD",(-1895239),13519634,737,"AU");
("YRKP",(-3167433),13863887,1479,"AU");
("YRKS",(-1986509),13810364,785,"AU");
("YRLE",(-2288205),11743970,1424,"AU");
("YRLH",(-1902769),13873377,461,"AU");
("YRLL",(-2445650),14862453,700,"AU");
("YRLO",(-3503938),13918583,374,"AU");
("YRMD",(-2070013),14310646,676,"AU");
("YRNG",(-1235648),13488519,206,"AU");
("YRNW",(-2382862),13495940,1333,"AU");
("YROB",(-1884751),14370590,1509,"AU");
("YROE",(-2077176),11715473,35,"AU");
("YROI",(-3464682),14277041,282,"AU");
("YROK",(-3592244),13671693,354,"AU");
("YROM",(-2655098),14877422,1032,"AU");
("YROS",(-2031957),14016759,657,"AU");
("YROT",(-2929141),11688386,1090,"AU");
("YROV",(-2359592),13451305,1660,"AU");
("YROX",(-2251978),13883179,499,"AU");
("YRRB",(-1473004),13452020,70,"AU");
("YRRG",(-2309979),11934997,2185,"AU");
("YRRR",(-1233648),13599237,86,"AU");
("YRSB",(-2582318),13962505,180,"AU");
("YRSK",(-1878394),12862086,1238,"AU");
("YRSV",(-2715061),14590920,807,"AU");
("YRSY",(-3738982),14473670,1488,"AU");
("YRTI",(-3200627),11553285,12,"AU");
("YRTP",(-1564227),14184028,50,"AU");
("YRUD",(-2255730),12214974,1285,"AU");
("YRUL",(-1290935),13625056,155,"AU");
("YRUN",(-2409619),15081825,274,"AU");
("YRUR",(-1219149),13629103,79,"AU");
("YRUS",(-4089409),14798524,108,"AU");
("YRVE",(-1790175),13020590,1152,"AU");
("YRVW",(-2010365),14690493,950,"AU");
("YRWA",(-3103075),12519442,613,"AU");
("YRXB",(-3070811),13670794,344,"AU");
("YRYH",(-2262179),11995574,1362,"AU");
("YRYK",(-3165709),13860591,1384,"AU");
("YRYW",(-3653256),14424117,435,"AU");
("YSAD",(-1946020),14177603,331,"AU");
("YSAG",(-2405004),13906932,307,"AU");
("YSAH",(-2279535),11961802,1379,"AU");
("YSAN",(-2797153),11928724,1727,"AU");
("YSAR",(-2704068),13524330,482,"AU");
("YSBE",(-3752909),14474335,927,"AU");
("YSBK",(-3391949),15098342,29,"AU");
("YSBO",(-2157414),13970393,1060,"AU");
("YSCA",(-3320800),14116540,180,"AU");
("YSCB",(-3529063),14919444,1887,"AU");
("YSCC",(-3508703),13865960,1110,"AU");
("YSCN",(-3404068),15068047,229,"AU");
("YSCO",(-3203484),15082593,745,"AU");
("YSCR",(-3123366),11934898,1162,"AU");
("YSDL",(-1271188),14236473,209,"AU");
("YSDN",(-3456760),13929685,307,"AU");
("YSDU",(-3222282),14856884,935,"AU");
("YSDW",(-3773393),14113152,232,"AU");
("YSEA",(-3456916),13933068,289,"AU");
("YSED",(-2868800),12096538,1227,"AU");
("YSEK",(-2629229),14845651,1304,"AU");
("YSEN",(-3239763),11586763,49,"AU");
("YSER",(-1483330),14494677,91,"AU");
("YSEW",(-3015282),15316128,104,"AU");
("YSFI",(-1977131),12108425,108,"AU");
("YSFS",(-3371959),15086563,72,"AU");
("YSFY",(-4298199),14720666,635,"AU");
("YSGD",(-1479041),14242635,256,"AU");
("YSGE",(-2804689),14858886,656,"AU");
("YSGR",(-2970899),15292770,10,"AU");
("YSGT",(-3259875),15118842,150,"AU");
("YSGW",(-2567483),14208313,380,"AU");
("YSHG",(-2042601),12014839,561,"AU");
("YSHK",(-2588887),11357721,110,"AU");
("YSHN",(-3474972),11649002,283,"AU");
("YSHR",(-2027379),14875303,60,"AU");
("YSHT",(-3642123),14539316,374,"AU");
("YSHW",(-3399397),15094908,250,"AU");
("YSIA",(-3256238),13670490,601,"AU");
("YSIE",(-2150364),14498770,1005,"AU");
("YSII",(-937630),14262227,14,"PG");
("YSKF",(-1958157),14677896,295,"AU");
("YSKI",(-1222804),13670231,20,"AU");
("YSKR",(-1186429),14200474,78,"AU");
("YSLD",(-2021837),14243096,633,"AU");
("YSLE",(-3817137),14468791,53,"AU");
("YSLG",(-1705210),12524121,1009,"AU");
("YSLK",(-3552996),14288396,184,"AU");
("YSLN",(-1589774),14338138,424,"AU");
("YSLV",(-2355684),12004314,1950,"AU");
("YSLW",(-2237358),14945599,58,"AU");
("YSMB",(-3337072),15129963,840,"AU");
("YSMH",(-2273586),15065048,116,"AU");
("YSMI",(-4083857),14507492,31,"AU");
("YSMK",(-2413051),15044234,530,"AU");
("YSMR",(-1786021),14255315,417,"AU");
("YSMT",(-1739857),14488005,1962,"AU");
("YSMY",(-1487858),14279500,347,"AU");
("YSNB",(-1141371),13064359,172,"AU");
("YSNF",(-2903644),16792974,371,"NF");
("YSNW",(-3494788),15052652,400,"AU");
("YSOB",(-2767054),15173079,1753,"AU");
("YSOE",(-2521986),14875664,1005,"AU");
("YSOH",(-3218798),12284038,1211,"AU");
("YSOW",(-1451915),14203885,168,"AU");
("YSPE",(-2861992),15197248,2938,"AU");
("YSPF",(-1798333),14443333,1636,"AU");
("YSPI",(-2413015),14808570,1209,"AU");
("YSPK",(-1862008),14456747,1700,"AU");
("YSPT",(-2792631),15336915,9,"AU");
("YSPV",(-2354775),14070131,434,"AU");
("YSPY",(-3466431),13633901,52,"AU");
("YSRD",(-2909456),12246461,1350,"AU");
("YSRI",(-3360165),15077126,67,"AU");
("YSRK",(-2089819),11764785,102,"AU");
("YSRN",(-4215042),14529132,66,"AU");
("YSRT",(-2716000),14907122,830,"AU");
("YSSY",(-3392936),15117160,21,"AU");
("YSTA",(-3663641),14318506,639,"AU");
("YSTB",(-1447605),14282099,441,"AU");
("YSTC",(-2971390),13705597,103,"AU");
("YSTD",(-1934360),14616384,1077,"AU");
("YSTH",(-4133747),14827911,158,"AU");
("YSTN",(-4103285),14699184,171,"AU");
("YSTO",(-2435981),14328626,538,"AU");
("YSTP",(-2035637),14679920,650,"AU");
("YSTR",(-3175498),14034068,465,"AU");
("YSTT",(-2411528),13438488,1424,"AU");
("YSTW",(-3108132),15083282,1334,"AU");
("YSUJ",(-1926531),12994330,1434,"AU");
("YSUN",(-3045203),15098111,3022,"AU");
("YSUR",(-4328849),14707126,229,"AU");
("YSUT",(-2133878),14797366,1054,"AU");
("YSVH",(-2059514),14307528,743,"AU");
("YSVN",(-1486973),14296458,426,"AU");
("YSVP",(-1397630),14354997,41,"AU");
("YSWA",(-4210235),14806665,20,"AU");
("YSWB",(-2905025),15330294,14,"AU");
("YSWE",(-1712063),13959959,23,"AU");
("YSWG",(-3516707),14746015,724,"AU");
("YSWH",(-3537491),14352486,234,"AU");
("YSWI",(-4072904),14811430,41,"AU");
("YSWK",(-3092881),15302612,2,"AU");
("YSWL",(-3707897),14274052,807,"AU");
("YSWR",(-3455668),13959089,39,"AU");
("YSXB",(-2001063),14247787,623,"AU");
("YSYN",(-3531436),13899857,70,"AU");
("YTAA",(-2716921),15047597,1180,"AU");
("YTAB",(-1729483),12690736,1480,"AU");
("YTAL",(-3540023),14916544,2044,"AU");
("YTAM",(-2579878),14989427,787,"AU");
("YTAN",(-2057116),12973595,1138,"AU");
("YTAP",(-2568922),14729284,1778,"AU");
("YTAR",(-3070247),13457599,397,"AU");
("YTAV",(-4180913),14773943,725,"AU");
("YTBB",(-3435638),13609360,36,"AU");
("YTBG",(-3558513),14828834,1348,"AU");
("YTBI",(-1220511),13400814,56,"AU");
("YTBM",(-3576851),14788566,1993,"AU");
("YTBP",(-2558546),15306151,329,"AU");
("YTBR",(-1561943),13044240,51,"AU");
("YTBX",(-2815582),12092849,1704,"AU");
("YTCF",(-2231245),12206046,1220,"AU");
("YTCK",(-2078271),14500319,1575,"AU");
("YTCL",(-2376063),14349554,632,"AU");
("YTCU",(-2267928),14334335,884,"AU");
("YTCY",(-2675294),13335320,1261,"AU");
("YTDM",(-2711822),13476968,610,"AU");
("YTDN",(-3821366),14542792,10,"AU");
("YTDR",(-2498061),15009311,560,"AU");
("YTEE",(-2182816),14088203,891,"AU");
("YTEF",(-2171049),12222196,970,"AU");
("YTEL",(-2960097),14940622,572,"AU");
("YTEM",(-3442584),14749524,920,"AU");
("YTEP",(-2806793),14183877,253,"AU");
("YTEX",(-2883433),15114783,979,"AU");
("YTFA",(-3439695),13937969,233,"AU");
("YTFD",(-2899221),15192337,2617,"AU");
("YTGA",(-2713324),15336379,27,"AU");
("YTGG",(-3735200),14569973,700,"AU");
("YTGI",(-3198230),14800265,695,"AU");
("YTGM",(-2798138),14380748,433,"AU");
("YTGT",(-2054383),13034016,1296,"AU");
("YTGW",(-2246463),14445423,775,"AU");
("YTHD",(-1479426),12649496,700,"AU");
("YTHI",(-3502699),13617279,49,"AU");
("YTHM",(-4045207),14490854,250,"AU");
("YTHR",(-2514152),11909670,1719,"AU");
("YTHS",(-2953333),11585802,882,"AU");
("YTHT",(-2998317),13539561,619,"AU");
("YTHV",(-2145907),11500948,9,"AU");
("YTHY",(-2609551),14346563,540,"AU");
("YTIB",(-2945743),14205413,584,"AU");
("YTII",(-2558604),14390117,944,"AU");
("YTIT",(-2212104),13342226,1808,"AU");
("YTIW",(-2766224),14009547,133,"AU");
("YTIY",(-1297125),13650025,75,"AU");
("YTJI",(-2600338),12544964,1431,"AU");
("YTJU",(-2934752),12710194,740,"AU");
("YTKS",(-2103267),14179267,420,"AU");
("YTKY",(-1704614),12820220,686,"AU");
("YTLE",(-3032120),14539076,333,"AU");
("YTLH",(-2707314),15237793,303,"AU");
("YTLI",(-2805540),15192758,1533,"AU");
("YTLP",(-3092270),14441374,280,"AU");
("YTLT",(-2263138),13680696,943,"AU");
("YTLW",(-1863070),14025210,120,"AU");
("YTMA",(-2464895),14961967,491,"AU");
("YTMB",(-2483853),14628684,1300,"AU");
("YTME",(-2341043),14382848,697,"AU");
("YTML",(-2665438),11374067,20,"AU");
("YTMN",(-1996137),12972119,1400,"AU");
("YTMO",(-2180205),13991639,949,"AU");
("YTMS",(-3131901),14983843,1207,"AU");
("YTMU",(-3526347),14824069,877,"AU");
("YTMY",(-2225579),13795007,574,"AU");
("YTNC",(-3220582),15247384,22,"AU");
("YTNG",(-2449264),15057180,644,"AU");
("YTNK",(-1963589),13416954,1236,"AU");
("YTNR",(-1645696),13464774,897,"AU");
("YTOA",(-2842050),14080724,194,"AU");
("YTOC",(-3580244),14560632,372,"AU");
("YTOG",(-3008224),14953081,629,"AU");
("YTOK",(-2513166),14716237,1709,"AU");
("YTOL",(-2587990),14804163,1540,"AU");
("YTOT",(-3226148),14736406,780,"AU");
("YTPA",(-1372355),13102402,235,"AU");
("YTQY",(-3829181),14436546,30,"AU");
("YTRB",(-3606254),14453330,304,"AU");
("YTRC",(-2407568),14339168,545,"AU");
("YTRE",(-3189283),15250965,37,"AU");
("YTRF",(-4063167),14468492,218,"AU");
("YTRK",(-2362188),11864469,1740,"AU");
("YTRN",(-2207897),14401302,819,"AU");
("YTRP",(-2927493),12467678,1150,"AU");
("YTRW",(-1736260),14374522,688,"AU");
("YTST",(-1408422),12637552,175,"AU");
("YTTB",(-2838361),12119895,1582,"AU");
("YTTD",(-1095310),14270122,35,"AU");
("YTTE",(-1397719),14165445,33,"AU");
("YTTI",(-1374791),12614616,27,"AU");
("YTTS",(-2295503),14942656,326,"AU");
("YTUA",(-4251116),14789453,35,"AU");
("YTUC",(-2747576),11813229,1526,"AU");
("YTUG",(-2449383),14920765,770,"AU");
("YTUN",(-4210905),14736069,735,"AU");
("YTUY",(-1793978),14593690,53,"AU");
("YTWB",(-2754022),15191199,2085,"AU");
("YTWD",(-2849875),14945159,625,"AU");
("YTWE",(-2283278),14672379,974,"AU")].
(** openap/data/nav/airports.csv:13502-13796 *)
Definition apts27 : list apt := [
("YTWN",(-3144639),14889303,1380,"AU");
("YTYA",(-3827182),14517950,88,"AU");
("YTYH",(-2859685),15354667,15,"AU");
("YTYN",(-2621498),13389888,1227,"AU");
("YUAN",(-2010980),12761332,972,"AU");
("YUBK",(-1387752),13677952,77,"AU");
("YUBT",(-3023702),13910147,1738,"AU");
("YUCH",(-1766961),13423598,764,"AU");
("YUDA",(-1818758),14460272,2450,"AU");
("YUDG",(-2158984),13836578,620,"AU");
("YUDL",(-1962558),13863303,844,"AU");
("YULC",(-2203465),14597152,942,"AU");
("YUMB",(-2574336),13369627,1490,"AU");
("YUMU",(-2648774),13203075,1916,"AU");
("YUND",(-2959236),14661051,394,"AU");
("YUNG",(-3626660),14378104,364,"AU");
("YUNY",(-2451412),13961144,307,"AU");
("YUOF",(-3821924),14716637,171,"AU");
("YUPG",(-1470395),13455764,52,"AU");
("YUPH",(-3007955),15064656,2227,"AU");
("YURL",(-2245188),13771931,640,"AU");
("YUSL",(-2616558),11339332,53,"AU");
("YUTP",(-2205873),13478878,1512,"AU");
("YUTS",(-2222929),13457546,1624,"AU");
("YVIV",(-3057922),13571962,507,"AU");
("YVLG",(-1867331),14508775,1598,"AU");
("YVNS",(-2234736),13086171,2019,"AU");
("YVRD",(-1640183),13099768,289,"AU");
("YVRS",(-1695638),14194967,140,"AU");
("YVSH",(-1113762),13197926,10,"AU");
("YVVA",(-3717785),14233700,727,"AU");
("YVVL",(-1473196),14358440,206,"AU");
("YWAB",(-2472095),11733611,1558,"AU");
("YWAC",(-2063785),13420278,1184,"AU");
("YWAF",(-3093117),15079589,1188,"AU");
("YWAG",(-2970710),14417089,360,"AU");
("YWAH",(-2445472),14410825,637,"AU");
("YWAL",(-1977408),12064469,31,"AU");
("YWAT",(-1263502),14303740,277,"AU");
("YWAV",(-1738931),13111454,658,"AU");
("YWAX",(-2528792),12755546,1889,"AU");
("YWBA",(-2411949),14947525,689,"AU");
("YWBB",(-2574651),14809485,1671,"AU");
("YWBE",(-3785536),14461252,141,"AU");
("YWBI",(-2099602),13439114,1258,"AU");
("YWBL",(-3828967),14244136,242,"AU");
("YWBN",(-3417701),15080895,875,"AU");
("YWBR",(-2611843),12658353,1500,"AU");
("YWBS",(-1020566),14282119,10,"AU");
("YWBV",(-3213428),11673093,952,"AU");
("YWBY",(-2292897),14441196,681,"AU");
("YWCA",(-3152580),14337510,250,"AU");
("YWCH",(-3100295),15155198,3788,"AU");
("YWCK",(-2814829),15193493,1500,"AU");
("YWCM",(-2009810),12911956,1522,"AU");
("YWDA",(-2847406),12223861,1435,"AU");
("YWDC",(-2114483),11869255,524,"AU");
("YWDE",(-3058549),14831221,470,"AU");
("YWDG",(-3003045),11937767,1535,"AU");
("YWDH",(-2541445),14266347,452,"AU");
("YWDI",(-3447868),13735728,69,"AU");
("YWDJ",(-1742124),12491922,301,"AU");
("YWDL",(-1857119),14089056,1050,"AU");
("YWDR",(-3493874),14940514,2293,"AU");
("YWDT",(-1875253),14483443,1533,"AU");
("YWDV",(-1966833),14488081,1895,"AU");
("YWDY",(-2593446),15296312,109,"AU");
("YWEA",(-2189783),14836523,0,"AU");
("YWEB",(-3371718),14888886,1947,"AU");
("YWEC",(-2553926),14513486,1074,"AU");
("YWEE",(-2709953),11614853,968,"AU");
("YWEL",(-3245608),14898372,1398,"AU");
("YWEO",(-3064408),13933693,363,"AU");
("YWER",(-1813047),13995460,59,"AU");
("YWEX",(-2238266),12481346,1169,"AU");
("YWGA",(-1632458),14541909,23,"AU");
("YWGE",(-2376481),11454957,323,"AU");
("YWGI",(-3515078),13645380,5,"AU");
("YWGM",(-3186414),11693109,958,"AU");
("YWGN",(-3331382),11735947,837,"AU");
("YWGT",(-3641883),14629928,504,"AU");
("YWGW",(-2611763),12195061,1505,"AU");
("YWHA",(-3305117),13751848,41,"AU");
("YWHC",(-3084913),14306721,530,"AU");
("YWHG",(-3668342),14523197,407,"AU");
("YWHI",(-4158511),14693291,614,"AU");
("YWHL",(-1777443),13565281,740,"AU");
("YWIB",(-2797162),13414367,922,"AU");
("YWID",(-3252499),15034390,652,"AU");
("YWIE",(-2112340),14726673,956,"AU");
("YWIG",(-1177740),13653771,43,"AU");
("YWIL",(-3129033),14265008,660,"AU");
("YWIN",(-2772556),15264333,170,"AU");
("YWIO",(-3421646),15066828,610,"AU");
("YWIR",(-3118469),13621963,459,"AU");
("YWIS",(-2246668),15017471,114,"AU");
("YWKB",(-3632213),14241263,397,"AU");
("YWKD",(-1386905),12998280,84,"AU");
("YWKH",(-2067942),11712020,45,"AU");
("YWKI",(-3418710),14002374,138,"AU");
("YWKM",(-3120262),11737243,1000,"AU");
("YWKR",(-4062040),14493360,4,"AU");
("YWKS",(-6668826),11144957,2533,"AU");
("YWKU",(-1162907),13030256,85,"AU");
("YWKW",(-3254545),15101507,250,"AU");
("YWLA",(-2127559),13262317,1521,"AU");
("YWLB",(-2733162),13407711,1020,"AU");
("YWLF",(-2517094),14333053,501,"AU");
("YWLG",(-3003733),14811825,439,"AU");
("YWLM",(-3278877),15182487,31,"AU");
("YWLN",(-3042049),13943815,266,"AU");
("YWLO",(-1528608),13157944,558,"AU");
("YWLU",(-2662590),12021686,1649,"AU");
("YWMA",(-3063063),14232899,611,"AU");
("YWMC",(-2890632),13633978,242,"AU");
("YWMG",(-2924042),14692160,429,"AU");
("YWML",(-1731496),13823616,205,"AU");
("YWMP",(-1666078),14399520,500,"AU");
("YWMR",(-1649787),14372445,448,"AU");
("YWMY",(-2385996),11513835,653,"AU");
("YWNA",(-3077157),13472807,489,"AU");
("YWND",(-2628529),15185978,1050,"AU");
("YWNG",(-3245153),14125559,498,"AU");
("YWNI",(-1369741),14155672,30,"AU");
("YWNL",(-2605760),12892033,2218,"AU");
("YWNN",(-2611493),14995317,853,"AU");
("YWNO",(-2713604),12133160,1739,"AU");
("YWNR",(-1236097),13146465,32,"AU");
("YWNS",(-2503203),14367280,541,"AU");
("YWOD",(-4217180),14744433,709,"AU");
("YWOH",(-3088138),11672442,1054,"AU");
("YWOK",(-3377274),12024809,234,"AU");
("YWOL",(-3455151),15078538,34,"AU");
("YWOR",(-1722155),13792580,190,"AU");
("YWOU",(-1477233),13104619,599,"AU");
("YWOV",(-3662791),14418165,494,"AU");
("YWOX",(-3239402),12398323,469,"AU");
("YWPA",(-3113829),13897357,733,"AU");
("YWPD",(-3151596),13862123,1707,"AU");
("YWPE",(-3494954),11669018,59,"AU");
("YWPL",(-2312020),11452689,301,"AU");
("YWRA",(-2047688),13816371,758,"AU");
("YWRC",(-3242768),11889820,989,"AU");
("YWRK",(-3495379),13731205,66,"AU");
("YWRL",(-2953541),15052976,1140,"AU");
("YWRN",(-3173333),14780325,669,"AU");
("YWRR",(-2347818),11379515,32,"AU");
("YWRS",(-1932313),14407468,2462,"AU");
("YWRT",(-4144932),14554305,2043,"AU");
("YWRV",(-1359772),13575496,67,"AU");
("YWSC",(-1566615),13267013,620,"AU");
("YWSD",(-3071093),14140185,349,"AU");
("YWSG",(-2709407),15245925,300,"AU");
("YWSI",(-2958033),13453024,486,"AU");
("YWSL",(-3808970),14695661,93,"AU");
("YWSX",(-3131901),11867237,1135,"AU");
("YWTA",(-2773216),13412161,0,"AU");
("YWTL",(-1662920),12931722,433,"AU");
("YWTN",(-2235703),14308251,638,"AU");
("YWTO",(-3408681),14188494,110,"AU");
("YWTV",(-1322613),14222837,205,"AU");
("YWUD",(-3303445),13544060,310,"AU");
("YWUL",(-1289035),13635349,58,"AU");
("YWVA",(-3324396),15142669,30,"AU");
("YWVN",(-1331319),14288309,465,"AU");
("YWWA",(-3025954),14940623,613,"AU");
("YWWD",(-2275092),14440107,739,"AU");
("YWWE",(-2029751),14661415,812,"AU");
("YWWG",(-2084811),12069886,518,"AU");
("YWWH",(-2206721),14772055,847,"AU");
("YWWI",(-2165776),12123106,921,"AU");
("YWWL",(-3393797),14718097,858,"AU");
("YWWS",(-2801649),15306469,370,"AU");
("YWWX",(-2412114),14558126,1058,"AU");
("YWYA",(-2726594),14598241,800,"AU");
("YWYB",(-3055756),13352713,499,"AU");
("YWYF",(-3605883),14323328,350,"AU");
("YWYG",(-1461611),13548491,26,"AU");
("YWYL",(-2875848),15103089,935,"AU");
("YWYM",(-1550440),12814864,14,"AU");
("YWYY",(-4099679),14572391,62,"AU");
("YXNU",(-2816601),15322131,436,"AU");
("YYAB",(-2755939),12052822,1565,"AU");
("YYAC",(-2137761),14709530,656,"AU");
("YYAK",(-1673600),14534693,1270,"AU");
("YYAL",(-2834834),11667155,1039,"AU");
("YYAM",(-2665072),14528474,855,"AU");
("YYAN",(-1228596),13665593,34,"AU");
("YYAW",(-3171593),14180376,712,"AU");
("YYAY",(-1221294),13623008,32,"AU");
("YYBE",(-2326583),14901415,444,"AU");
("YYCA",(-3050698),14290716,433,"AU");
("YYDE",(-2137631),11887712,742,"AU");
("YYDN",(-1430696),14330636,809,"AU");
("YYEA",(-3717231),14532223,593,"AU");
("YYER",(-2947340),12182960,1239,"AU");
("YYGG",(-2088915),12794233,1302,"AU");
("YYIN",(-2465270),11616831,931,"AU");
("YYKA",(-2490227),14403697,670,"AU");
("YYKI",(-975018),14340164,10,"PG");
("YYLD",(-3026307),14297666,409,"AU");
("YYLG",(-2742327),11551512,802,"AU");
("YYLK",(-1226151),13600560,79,"AU");
("YYLL",(-2544764),14844852,1809,"AU");
("YYLR",(-2726945),12009381,1611,"AU");
("YYMI",(-989775),14277082,14,"AU");
("YYND",(-2224940),13177637,2204,"AU");
("YYNG",(-3426083),14824524,1267,"AU");
("YYNR",(-2250819),11479776,109,"AU");
("YYOO",(-3179950),13685888,301,"AU");
("YYOR",(-3499799),13761916,131,"AU");
("YYRK",(-3185898),11679447,566,"AU");
("YYRM",(-3856601),14674783,50,"AU");
("YYRN",(-2815168),12366863,1437,"AU");
("YYTA",(-3146861),13181903,210,"AU");
("YYUM",(-2855858),11901662,1425,"AU");
("YYUN",(-3256607),13956298,1007,"AU");
("YYWA",(-2794523),14462288,664,"AU");
("YYWG",(-3603180),14602270,423,"AU");
("YYYA",(-2128142),11838057,439,"AU");
("YZAN",(-3103603),12355967,883,"AU");
("YZHN",(-4188864),14534994,541,"AU");
("ZBAA",4008936,11659483,116,"CN");
("ZBHH",4084478,11180424,3556,"CN");
("ZBLA",4920374,11980726,2169,"CN");
("ZBSJ",3829359,11468681,233,"CN");
("ZBTJ",3913735,11733821,10,"CN");
("ZBYN",3775559,11261388,2575,"CN");
("ZGGG",2337554,11330532,50,"CN");
("ZGHA",2820087,11321893,217,"CN");
("ZGKL",2520551,11003799,570,"CN");
("ZGNN",2259961,10816260,421,"CN");
("ZGSZ",2265296,11380315,13,"CN");
("ZHCC",3452516,11382402,495,"CN");
("ZHHH",3077228,11419631,113,"CN");
("ZJHK",1993477,11043803,75,"CN");
("ZJSY",1830083,10939639,92,"CN");
("ZKPY",3922775,12567587,117,"KP");
("ZLAK",3270917,10892264,859,"CN");
("ZLDH",4016004,9478941,3694,"CN");
("ZLGM",3639978,9475938,9322,"CN");
("ZLJQ",3986947,9832636,5124,"CN");
("ZLLL",3653142,10361978,6388,"CN");
("ZLXY",3443807,10873990,1571,"CN");
("ZMBH",4617476,10069701,6085,"MN");
("ZMBU",4666999,11328338,3205,"MN");
("ZMCD",4814007,11463028,2457,"MN");
("ZMDZ",4358227,10442335,4787,"MN");
("ZMKD",4796558,9161987,4898,"MN");
("ZMMN",4966561,10008305,4272,"MN");
("ZMUB",4785298,10675329,4364,"MN");
("ZPJH",2198328,10075609,1815,"CN");
("ZPLJ",2666835,10024249,7357,"CN");
("ZPPP",2497939,10273454,6217,"CN");
("ZPZI",2655224,10180407,6482,"CN");
("ZPZT",2731491,10374517,6397,"CN");
("ZSAM",2453459,11811452,59,"CN");
("ZSCN",2885337,11589439,143,"CN");
("ZSFZ",2592051,11965517,46,"CN");
("ZSHC",3022212,12041780,23,"CN");
("ZSJN",3684099,11721600,76,"CN");
("ZSNB",2983459,12144804,13,"CN");
("ZSNJ",3173345,11884591,49,"CN");
("ZSOF",3178964,11728757,108,"CN");
("ZSPD",3116129,12178589,13,"CN");
("ZSQD",3628099,12036970,33,"CN");
("ZSSS",3121325,12133544,10,"CN");
("ZSWH",3717603,12222426,145,"CN");
("ZSWZ",2790325,12084598,14,"CN");
("ZSYT",3739101,12136143,59,"CN");
("ZUAL",3211785,8004192,14015,"CN");
("ZUBD",3057055,9709278,14219,"CN");
("ZUCG",3093871,10433339,1555,"CN");
("ZUCK",2970539,10663686,1365,"CN");
("ZUGY",2652423,10679804,3736,"CN");
("ZULS",2929776,9089170,11713,"CN");
("ZUNZ",2929585,9432245,9674,"CN");
("ZUUU",3056348,10394008,1625,"CN");
("ZUXC",2800532,10218385,5112,"CN");
("ZUYB",2878706,10453420,1082,"CN");
("ZWCM",3814201,8553103,4081,"CN");
("ZWEI",3799204,10256655,5111,"CN");
("ZWKL",4169086,8610388,3051,"CN");
("ZWSH",3954189,7600144,4529,"CN");
("ZWTN",3704350,7984825,4672,"CN");
("ZWWW",4390253,8745273,2125,"CN");
("ZYCC",4398681,12567025,706,"CN");
("ZYHB",4561227,12623731,457,"CN");
("ZYJM",4683588,13045322,262,"CN");
("ZYMD",4451351,12956181,883,"CN");
("ZYQQ",4725041,12391156,477,"CN");
("ZYTL",3896713,12151966,107,"CN");
("ZYTX",4163037,12346903,198,"CN");
("ZYYJ",4288111,12943551,624,"CN");
("ZYYY",4177619,12348948,151,"CN")].
(** openap/data/nav/airports.csv: the whole table *)
Definition apts : list apt := apts00 ++ apts01 ++ apts02 ++ apts03 ++ apts04 ++ apts05 ++ apts06 ++ apts07 ++ apts08 ++ apts09 ++ apts10 ++ apts11 ++ apts12 ++ apts13 ++ apts14 ++ apts15 ++ apts16 ++ apts17 ++ apts18 ++ apts19 ++ apts20 ++ apts21 ++ apts22 ++ apts23 ++ apts24 ++ apts25 ++ apts26 ++ apts27.
