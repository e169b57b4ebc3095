(** Generated by tools/gen_astro.py from the embedded assets of /repo/data.go
    (the map _escData, data.go:190-3524); do not edit.
    For each file astro-YYYY.json: the success flag, the error code ("" for null) and the
    records (code, dateTimeISO as seconds since 0001-01-01T00:00:00Z, its zone offset in
    seconds, timestamp in Unix seconds). *)
From Coq Require Import ZArith List String.
Import ListNotations.
Open Scope Z_scope.

Definition record : Type := Z * Z * Z * Z.
Definition file : Type := bool * string * list record.

Definition file_1900 : file := (true, "warn_no_data"%string, [
]).
Definition file_1901 : file := (true, "warn_no_data"%string, [
]).
Definition file_1902 : file := (true, ""%string, [
(3,59989738116,0,-2145858684);
(0,59990447664,0,-2145149136);
(1,59991086252,0,-2144510548);
(2,59991667528,0,-2143929272);
(3,59992319315,0,-2143277485);
(0,59993011291,0,-2142585509);
(1,59993621758,0,-2141975042);
(2,59994219750,0,-2141377050);
(3,59994902346,0,-2140694454);
(0,59995565414,0,-2140031386);
(1,59996153556,0,-2139443244);
(2,59996776823,0,-2138819977);
(3,59997479044,0,-2138117756);
(0,59998110611,0,-2137486189);
(1,59998685128,0,-2136911672);
(2,59999338124,0,-2136258676);
(3,60000044291,0,-2135552509);
(0,60000648304,0,-2134948496);
(1,60001220352,0,-2134376448);
(2,60001901126,0,-2133695674);
(3,60002596823,0,-2132999977);
(0,60003180637,0,-2132416163);
(1,60003762767,0,-2131834033);
(2,60004462593,0,-2131134207);
(3,60005137921,0,-2130458879);
(0,60005710730,0,-2129886070);
(1,60006314708,0,-2129282092);
(2,60007020311,0,-2128576489);
(3,60007670093,0,-2127926707);
(0,60008242597,0,-2127354203);
(1,60008876526,0,-2126720274);
(2,60009573818,0,-2126022982);
(3,60010196693,0,-2125400107);
(0,60010780694,0,-2124816106);
(1,60011446381,0,-2124150419);
(2,60012123837,0,-2123472963);
(3,60012721939,0,-2122874861);
(0,60013328882,0,-2122267918);
(1,60014020798,0,-2121576002);
(2,60014671294,0,-2120925506);
(3,60015250743,0,-2120346057);
(0,60015888802,0,-2119707998);
(1,60016595443,0,-2119001357);
(2,60017216808,0,-2118379992);
(3,60017788088,0,-2117808712);
(0,60018458696,0,-2117138104);
(1,60019165642,0,-2116431158);
(2,60019760861,0,-2115835939);
(3,60020337675,0,-2115259125);
(0,60021033916,0,-2114562884)]).
Definition file_1903 : file := (true, ""%string, [
(1,60021727013,0,-2113869787);
(2,60022304253,0,-2113292547);
(3,60022900178,0,-2112696622);
(0,60023608734,0,-2111988066);
(1,60024276728,0,-2111320072);
(2,60024848276,0,-2110748524);
(3,60025472545,0,-2110124255);
(0,60026177996,0,-2109418804);
(1,60026814803,0,-2108781997);
(2,60027394353,0,-2108202447);
(3,60028049268,0,-2107547532);
(0,60028737999,0,-2106858801);
(1,60029344246,0,-2106252554);
(2,60029943454,0,-2105653346);
(3,60030624666,0,-2104972134);
(0,60031287107,0,-2104309693);
(1,60031869908,0,-2103726892);
(2,60032495821,0,-2103100979);
(3,60033194358,0,-2102402442);
(0,60033826168,0,-2101770632);
(1,60034397000,0,-2101199800);
(2,60035051234,0,-2100545566);
(3,60035755498,0,-2099841302);
(0,60036358225,0,-2099238575);
(1,60036930061,0,-2098666739);
(2,60037609361,0,-2097987439);
(3,60038306687,0,-2097290113);
(0,60038887552,0,-2096709248);
(1,60039472412,0,-2096124388);
(2,60040169651,0,-2095427149);
(3,60040848175,0,-2094748625);
(0,60041418634,0,-2094178166);
(1,60042025982,0,-2093570818);
(2,60042730807,0,-2092865993);
(3,60043382020,0,-2092214780);
(0,60043955402,0,-2091641398);
(1,60044591246,0,-2091005554);
(2,60045290640,0,-2090306160);
(3,60045911808,0,-2089684992);
(0,60046500588,0,-2089096212);
(1,60047166757,0,-2088430043);
(2,60047846875,0,-2087749925);
(3,60048441976,0,-2087154824);
(0,60049055396,0,-2086541404);
(1,60049748228,0,-2085848572);
(2,60050398392,0,-2085198408);
(3,60050976833,0,-2084619967);
(0,60051619565,0,-2083977235);
(1,60052328552,0,-2083268248)]).
Definition file_1904 : file := (true, ""%string, [
(2,60052945668,0,-2082651132);
(3,60053519453,0,-2082077347);
(0,60054191212,0,-2081405588);
(1,60054900021,0,-2080696779);
(2,60055490001,0,-2080106799);
(3,60056070991,0,-2079525809);
(0,60056766274,0,-2078830526);
(1,60057457648,0,-2078139152);
(2,60058032477,0,-2077564323);
(3,60058630839,0,-2076965961);
(0,60059338746,0,-2076258054);
(1,60060000896,0,-2075595904);
(2,60060573788,0,-2075023012);
(3,60061197221,0,-2074399579);
(0,60061902793,0,-2073694007);
(1,60062532770,0,-2073064030);
(2,60063114883,0,-2072481917);
(3,60063767461,0,-2071829339);
(0,60064455491,0,-2071141309);
(1,60065057845,0,-2070538955);
(2,60065657593,0,-2069939207);
(3,60066337992,0,-2069258808);
(0,60066997794,0,-2068599006);
(1,60067580992,0,-2068015808);
(2,60068204529,0,-2067392271);
(3,60068904873,0,-2066691927);
(0,60069533218,0,-2066063582);
(1,60070106929,0,-2065489871);
(2,60070758090,0,-2064838710);
(3,60071465003,0,-2064131797);
(0,60072065884,0,-2063530916);
(1,60072640062,0,-2062956738);
(2,60073318953,0,-2062277847);
(3,60074017147,0,-2061579653);
(0,60074599355,0,-2060997445);
(1,60075184377,0,-2060412423);
(2,60075885051,0,-2059711749);
(3,60076561962,0,-2059034838);
(0,60077136287,0,-2058460513);
(1,60077742843,0,-2057853957);
(2,60078452230,0,-2057144570);
(3,60079101226,0,-2056495574);
(0,60079678610,0,-2055918190);
(1,60080315721,0,-2055281079);
(2,60081016404,0,-2054580396);
(3,60081637126,0,-2053959674);
(0,60082228014,0,-2053368786);
(1,60082898777,0,-2052698023);
(2,60083575330,0,-2052021470);
(3,60084172020,0,-2051424780)]).
Definition file_1905 : file := (true, ""%string, [
(0,60084785887,0,-2050810913);
(1,60085483803,0,-2050112997);
(2,60086128506,0,-2049468294);
(3,60086708467,0,-2048888333);
(0,60087352024,0,-2048244776);
(1,60088061993,0,-2047534807);
(2,60088675955,0,-2046920845);
(3,60089249102,0,-2046347698);
(0,60089923219,0,-2045673581);
(1,60090627560,0,-2044969240);
(2,60091217735,0,-2044379065);
(3,60091796180,0,-2043800620);
(0,60092493860,0,-2043102940);
(1,60093178838,0,-2042417962);
(2,60093754635,0,-2041842165);
(3,60094350862,0,-2041245938);
(0,60095058640,0,-2040538160);
(1,60095717141,0,-2039879659);
(2,60096288924,0,-2039307876);
(3,60096912599,0,-2038684201);
(0,60097615005,0,-2037981795);
(1,60098245469,0,-2037351331);
(2,60098824228,0,-2036772572);
(3,60099479134,0,-2036117666);
(0,60100163366,0,-2035433434);
(1,60100768001,0,-2034828799);
(2,60101364645,0,-2034232155);
(3,60102047322,0,-2033549478);
(0,60102705711,0,-2032891089);
(1,60103289834,0,-2032306966);
(2,60103913451,0,-2031683349);
(3,60104614239,0,-2030982561);
(0,60105244348,0,-2030352452);
(1,60105816566,0,-2029780234);
(2,60106471804,0,-2029124996);
(3,60107177684,0,-2028419116);
(0,60107781510,0,-2027815290);
(1,60108353643,0,-2027243157);
(2,60109038196,0,-2026558604);
(3,60109735890,0,-2025860910);
(0,60110319433,0,-2025277367);
(1,60110905100,0,-2024691700);
(2,60111609129,0,-2023987671);
(3,60112287261,0,-2023309539);
(0,60112860432,0,-2022736368);
(1,60113471771,0,-2022125029);
(2,60114180379,0,-2021416421);
(3,60114830929,0,-2020765871);
(0,60115406678,0,-2020190122)]).
Definition file_1906 : file := (true, ""%string, [
(1,60116050243,0,-2019546557);
(2,60116747846,0,-2018848954);
(3,60117367750,0,-2018229050);
(0,60117959457,0,-2017637343);
(1,60118633825,0,-2016962975);
(2,60119308017,0,-2016288783);
(3,60119900608,0,-2015696192);
(0,60120518350,0,-2015078450);
(1,60121214960,0,-2014381840);
(2,60121858724,0,-2013738076);
(3,60122433524,0,-2013163276);
(0,60123081234,0,-2012515566);
(1,60123787395,0,-2011809405);
(2,60124400007,0,-2011196793);
(3,60124970270,0,-2010626530);
(0,60125645290,0,-2009951510);
(1,60126347260,0,-2009249540);
(2,60126934206,0,-2008662594);
(3,60127513396,0,-2008083404);
(0,60128208100,0,-2007388700);
(1,60128893439,0,-2006703361);
(2,60129465099,0,-2006131701);
(3,60130064060,0,-2005532740);
(0,60130767933,0,-2004828867);
(1,60131427536,0,-2004169264);
(2,60131996823,0,-2003599977);
(3,60132622364,0,-2002974436);
(0,60133323496,0,-2002273304);
(1,60133953375,0,-2001643425);
(2,60134533126,0,-2001063674);
(3,60135187691,0,-2000409109);
(0,60135873966,0,-1999722834);
(1,60136476139,0,-1999120661);
(2,60137076918,0,-1998519882);
(3,60137758491,0,-1997838309);
(0,60138419517,0,-1997177283);
(1,60139001480,0,-1996595320);
(2,60139630054,0,-1995966746);
(3,60140331635,0,-1995265165);
(0,60140961683,0,-1994635117);
(1,60141534593,0,-1994062207);
(2,60142193140,0,-1993403660);
(3,60142902338,0,-1992694462);
(0,60143502956,0,-1992093844);
(1,60144079168,0,-1991517632);
(2,60144764864,0,-1990831936);
(3,60145465532,0,-1990131268);
(0,60146045693,0,-1989551107);
(1,60146636592,0,-1988960208);
(2,60147341068,0,-1988255732)]).
Definition file_1907 : file := (true, ""%string, [
(3,60148018055,0,-1987578745);
(0,60148591088,0,-1987005712);
(1,60149205703,0,-1986391097);
(2,60149915149,0,-1985681651);
(3,60150559905,0,-1985036895);
(0,60151139071,0,-1984457729);
(1,60151782922,0,-1983813878);
(2,60152480663,0,-1983116137);
(3,60153093709,0,-1982503091);
(0,60153689199,0,-1981907601);
(1,60154362637,0,-1981234163);
(2,60155034380,0,-1980562420);
(3,60155623262,0,-1979973538);
(0,60156241652,0,-1979355148);
(1,60156938305,0,-1978658495);
(2,60157577156,0,-1978019644);
(3,60158152436,0,-1977444364);
(0,60158797222,0,-1976799578);
(1,60159504447,0,-1976092353);
(2,60160112312,0,-1975484488);
(3,60160684808,0,-1974911992);
(0,60161356220,0,-1974240580);
(1,60162058477,0,-1973538323);
(2,60162643639,0,-1972953161);
(3,60163223662,0,-1972373138);
(0,60163917409,0,-1971679391);
(1,60164601065,0,-1970995735);
(2,60165174540,0,-1970422260);
(3,60165771952,0,-1969824848);
(0,60166478137,0,-1969118663);
(1,60167135095,0,-1968461705);
(2,60167708053,0,-1967888747);
(3,60168331702,0,-1967265098);
(0,60169035759,0,-1966561041);
(1,60169664386,0,-1965932414);
(2,60170247152,0,-1965349648);
(3,60170902655,0,-1964694145);
(0,60171589160,0,-1964007640);
(1,60172192923,0,-1963403877);
(2,60172794923,0,-1962801877);
(3,60173481106,0,-1962115694);
(0,60174139072,0,-1961457728);
(1,60174724520,0,-1960872280);
(2,60175353838,0,-1960242962);
(3,60176060496,0,-1959536304);
(0,60176686928,0,-1958909872);
(1,60177262625,0,-1958334175);
(2,60177923739,0,-1957673061);
(3,60178633893,0,-1956962907)]).
Definition file_1908 : file := (true, ""%string, [
(0,60179233422,0,-1956363378);
(1,60179810022,0,-1955786778);
(2,60180500241,0,-1955096559);
(3,60181196532,0,-1954400268);
(0,60181778233,0,-1953818567);
(1,60182368091,0,-1953228709);
(2,60183075959,0,-1952520841);
(3,60183746682,0,-1951850118);
(0,60184321097,0,-1951275703);
(1,60184935745,0,-1950661055);
(2,60185644191,0,-1949952609);
(3,60186285120,0,-1949311680);
(0,60186863040,0,-1948733760);
(1,60187509069,0,-1948087731);
(2,60188201815,0,-1947394985);
(3,60188814448,0,-1946782352);
(0,60189406496,0,-1946190304);
(1,60190082560,0,-1945514240);
(2,60190749236,0,-1944847564);
(3,60191338692,0,-1944258108);
(0,60191954172,0,-1943642628);
(1,60192651354,0,-1942945446);
(2,60193288602,0,-1942308198);
(3,60193862836,0,-1941733964);
(0,60194507570,0,-1941089230);
(1,60195212733,0,-1940384067);
(2,60195822541,0,-1939774259);
(3,60196392173,0,-1939204627);
(0,60197066263,0,-1938530537);
(1,60197766064,0,-1937830736);
(2,60198353967,0,-1937242833);
(3,60198931572,0,-1936665228);
(0,60199628339,0,-1935968461);
(1,60200311870,0,-1935284930);
(2,60200886206,0,-1934710594);
(3,60201484418,0,-1934112382);
(0,60202191526,0,-1933405274);
(1,60202851208,0,-1932745592);
(2,60203422964,0,-1932173836);
(3,60204051291,0,-1931545509);
(0,60204753929,0,-1930842871);
(1,60205385766,0,-1930211034);
(2,60205967826,0,-1929628974);
(3,60206629234,0,-1928967566);
(0,60207313907,0,-1928282893);
(1,60207918260,0,-1927678540);
(2,60208523004,0,-1927073796);
(3,60209212377,0,-1926384423);
(0,60209869725,0,-1925727075);
(1,60210452407,0,-1925144393)]).
Definition file_1909 : file := (true, ""%string, [
(2,60211087925,0,-1924508875);
(3,60211793555,0,-1923803245);
(0,60212419871,0,-1923176929);
(1,60212992054,0,-1922604746);
(2,60213659041,0,-1921937759);
(3,60214366091,0,-1921230709);
(0,60214963933,0,-1920632867);
(1,60215539732,0,-1920057068);
(2,60216231313,0,-1919365487);
(3,60216925341,0,-1918671459);
(0,60217503127,0,-1918093673);
(1,60218095677,0,-1917501123);
(2,60218800101,0,-1916796699);
(3,60219469837,0,-1916126963);
(0,60220039962,0,-1915556838);
(1,60220658107,0,-1914938693);
(2,60221362111,0,-1914234689);
(3,60222001541,0,-1913595259);
(0,60222577416,0,-1913019384);
(1,60223224435,0,-1912372365);
(2,60223915564,0,-1911681236);
(3,60224524989,0,-1911071811);
(0,60225118195,0,-1910478605);
(1,60225792214,0,-1909804586);
(2,60226460341,0,-1909136459);
(3,60227045943,0,-1908550857);
(0,60227664366,0,-1907932434);
(1,60228359201,0,-1907237599);
(2,60228998135,0,-1906598665);
(3,60229570275,0,-1906026525);
(0,60230217328,0,-1905379472);
(1,60230922984,0,-1904673816);
(2,60231532162,0,-1904064638);
(3,60232103152,0,-1903493648);
(0,60232777726,0,-1902819074);
(1,60233481094,0,-1902115706);
(2,60234066379,0,-1901530421);
(3,60234648305,0,-1900948495);
(0,60235344789,0,-1900252011);
(1,60236031779,0,-1899565021);
(2,60236604437,0,-1898992363);
(3,60237207479,0,-1898389321);
(0,60237915461,0,-1897681339);
(1,60238574902,0,-1897021898);
(2,60239148692,0,-1896448108);
(3,60239779982,0,-1895816818);
(0,60240484679,0,-1895112121);
(1,60241112225,0,-1894484575);
(2,60241699761,0,-1893897039)]).
Definition file_1910 : file := (true, ""%string, [
(3,60242362094,0,-1893234706);
(0,60243047446,0,-1892549354);
(1,60243646817,0,-1891949983);
(2,60244256997,0,-1891339803);
(3,60244946931,0,-1890649869);
(0,60245601198,0,-1889995602);
(1,60246181959,0,-1889414841);
(2,60246819312,0,-1888777488);
(3,60247526022,0,-1888070778);
(0,60248146380,0,-1887450420);
(1,60248720249,0,-1886876551);
(2,60249385220,0,-1886211580);
(3,60250092521,0,-1885504279);
(0,60250685154,0,-1884911646);
(1,60251263431,0,-1884333369);
(2,60251952142,0,-1883644658);
(3,60252643789,0,-1882953011);
(0,60253220014,0,-1882376786);
(1,60253812753,0,-1881784047);
(2,60254516350,0,-1881080450);
(3,60255181439,0,-1880415361);
(0,60255753413,0,-1879843387);
(1,60256369139,0,-1879227661);
(2,60257074348,0,-1878522452);
(3,60257709524,0,-1877887276);
(0,60258288026,0,-1877308774);
(1,60258932650,0,-1876664150);
(2,60259624670,0,-1875972130);
(3,60260232888,0,-1875363912);
(0,60260827011,0,-1874769789);
(1,60261501631,0,-1874095169);
(2,60262168503,0,-1873428297);
(3,60262756449,0,-1872840351);
(0,60263373889,0,-1872222911);
(1,60264072568,0,-1871524232);
(2,60264708801,0,-1870887999);
(3,60265284913,0,-1870311887);
(0,60265931464,0,-1869665336);
(1,60266641135,0,-1868955665);
(2,60267248711,0,-1868348089);
(3,60267822555,0,-1867774245);
(0,60268499751,0,-1867097049);
(1,60269203714,0,-1866393086);
(2,60269790308,0,-1865806492);
(3,60270372855,0,-1865223945);
(0,60271074636,0,-1864522164);
(1,60271758282,0,-1863838518);
(2,60272334286,0,-1863262514);
(3,60272937394,0,-1862659406)]).
Definition file_1911 : file := (true, ""%string, [
(1,60274304382,0,-1861292418);
(2,60274880739,0,-1860716061);
(3,60275514099,0,-1860082701);
(0,60276217508,0,-1859379292);
(1,60276842842,0,-1858753958);
(2,60277430232,0,-1858166568);
(3,60278096682,0,-1857500118);
(0,60278776315,0,-1856820485);
(1,60279375698,0,-1856221102);
(2,60279983886,0,-1855612914);
(3,60280676818,0,-1854919982);
(0,60281325521,0,-1854271279);
(1,60281906122,0,-1853690678);
(2,60282542175,0,-1853054625);
(3,60283247792,0,-1852349008);
(0,60283866338,0,-1851730462);
(1,60284438034,0,-1851158766);
(2,60285103771,0,-1850493029);
(3,60285806602,0,-1849790198);
(0,60286400653,0,-1849196147);
(1,60286975430,0,-1848621370);
(2,60287665844,0,-1847930956);
(3,60288353462,0,-1847243338);
(0,60288931171,0,-1846665629);
(1,60289521571,0,-1846075229);
(2,60290225620,0,-1845371180);
(3,60290890286,0,-1844706514);
(0,60291461525,0,-1844135275);
(1,60292078086,0,-1843518714);
(2,60292781721,0,-1842815079);
(3,60293419885,0,-1842176915);
(0,60293996029,0,-1841600771);
(1,60294644350,0,-1840952450);
(2,60295334246,0,-1840262554);
(3,60295945910,0,-1839650890);
(0,60296538994,0,-1839057806);
(1,60297217602,0,-1838379198);
(2,60297883922,0,-1837712878);
(3,60298472840,0,-1837123960);
(0,60299093335,0,-1836503465);
(1,60299793678,0,-1835803122);
(2,60300431312,0,-1835165488);
(3,60301005640,0,-1834591160);
(0,60301658967,0,-1833937833);
(1,60302367728,0,-1833229072);
(2,60302976704,0,-1832620096);
(3,60303548779,0,-1832048021);
(0,60304232411,0,-1831364389);
(1,60304934824,0,-1830661976)]).
Definition file_1912 : file := (true, ""%string, [
(2,60305520544,0,-1830076256);
(3,60306104564,0,-1829492236);
(0,60306808161,0,-1828788639);
(1,60307491005,0,-1828105795);
(2,60308063840,0,-1827532960);
(3,60308671789,0,-1826925011);
(0,60309380615,0,-1826216185);
(1,60310034728,0,-1825562072);
(2,60310608066,0,-1824988734);
(3,60311246071,0,-1824350729);
(0,60311945319,0,-1823651481);
(1,60312567647,0,-1823029153);
(2,60313154615,0,-1822442185);
(3,60313821828,0,-1821774972);
(0,60314499627,0,-1821097173);
(1,60315093981,0,-1820502819);
(2,60315704302,0,-1819892498);
(3,60316394217,0,-1819202583);
(0,60317043221,0,-1818553579);
(1,60317619030,0,-1817977770);
(2,60318257328,0,-1817339472);
(3,60318959810,0,-1816636990);
(0,60319578202,0,-1816018598);
(1,60320147886,0,-1815448914);
(2,60320813610,0,-1814783190);
(3,60321516484,0,-1814080316);
(0,60322108389,0,-1813488411);
(1,60322684671,0,-1812912129);
(2,60323372901,0,-1812223899);
(3,60324063503,0,-1811533297);
(0,60324638268,0,-1810958532);
(1,60325232155,0,-1810364645);
(2,60325934369,0,-1809662431);
(3,60326601821,0,-1808994979);
(0,60327172107,0,-1808424693);
(1,60327791648,0,-1807805152);
(2,60328496112,0,-1807100688);
(3,60329134108,0,-1806462692);
(0,60329713231,0,-1805883569);
(1,60330362769,0,-1805234031);
(2,60331055487,0,-1804541313);
(3,60331664292,0,-1803932508);
(0,60332263490,0,-1803333310);
(1,60332942632,0,-1802654168);
(2,60333610366,0,-1801986434);
(3,60334196735,0,-1801400065);
(0,60334823209,0,-1800773591);
(1,60335525197,0,-1800071603);
(2,60336160226,0,-1799436574);
(3,60336735151,0,-1798861649)]).
Definition file_1913 : file := (true, ""%string, [
(0,60337391300,0,-1798205500);
(1,60338102445,0,-1797494355);
(2,60338705995,0,-1796890805);
(3,60339281649,0,-1796315151);
(0,60339964883,0,-1795631917);
(1,60340667560,0,-1794929240);
(2,60341248971,0,-1794347829);
(3,60341836505,0,-1793760295);
(0,60342538914,0,-1793057886);
(1,60343217773,0,-1792379027);
(2,60343790105,0,-1791806695);
(3,60344398660,0,-1791198140);
(0,60345107291,0,-1790489509);
(1,60345754631,0,-1789842169);
(2,60346330279,0,-1789266521);
(3,60346966190,0,-1788630610);
(0,60347665492,0,-1787931308);
(1,60348282217,0,-1787314583);
(2,60348871017,0,-1786725783);
(3,60349536282,0,-1786060518);
(0,60350212622,0,-1785384178);
(1,60350805397,0,-1784791403);
(2,60351414762,0,-1784182038);
(3,60352105287,0,-1783491513);
(0,60352751148,0,-1782845652);
(1,60353329049,0,-1782267751);
(2,60353964333,0,-1781632467);
(3,60354669551,0,-1780927249);
(0,60355285061,0,-1780311739);
(1,60355857808,0,-1779738992);
(2,60356521599,0,-1779075201);
(3,60357226683,0,-1778370117);
(0,60357818252,0,-1777778548);
(1,60358395951,0,-1777200849);
(2,60359085973,0,-1776510827);
(3,60359776205,0,-1775820595);
(0,60360353764,0,-1775243036);
(1,60360947132,0,-1774649668);
(2,60361654042,0,-1773942758);
(3,60362319176,0,-1773277624);
(0,60362893708,0,-1772703092);
(1,60363513221,0,-1772083579);
(2,60364221132,0,-1771375668);
(3,60364857395,0,-1770739405);
(0,60365439673,0,-1770157127);
(1,60366092271,0,-1769504529);
(2,60366783662,0,-1768813138);
(3,60367392955,0,-1768203845);
(0,60367993142,0,-1767603658)]).
Definition file_1914 : file := (true, ""%string, [
(1,60368677660,0,-1766919140);
(2,60369340172,0,-1766256628);
(3,60369928219,0,-1765668581);
(0,60370554876,0,-1765041924);
(1,60371260282,0,-1764336518);
(2,60371890494,0,-1763706306);
(3,60372465826,0,-1763130974);
(0,60373123356,0,-1762473444);
(1,60373832535,0,-1761764265);
(2,60374434700,0,-1761162100);
(3,60375008405,0,-1760588395);
(0,60375694166,0,-1759902634);
(1,60376390827,0,-1759205973);
(2,60376973243,0,-1758623557);
(3,60377557957,0,-1758038843);
(0,60378261726,0,-1757335074);
(1,60378935264,0,-1756661536);
(2,60379507773,0,-1756089027);
(3,60380115129,0,-1755481671);
(0,60380822099,0,-1754774701);
(1,60381468142,0,-1754128658);
(2,60382041434,0,-1753555366);
(3,60382678775,0,-1752918025);
(0,60383374358,0,-1752222442);
(1,60383993068,0,-1751603732);
(2,60384578317,0,-1751018483);
(3,60385246285,0,-1750350515);
(0,60385919845,0,-1749676955);
(1,60386514686,0,-1749082114);
(2,60387122368,0,-1748474432);
(3,60387814567,0,-1747782233);
(0,60388460712,0,-1747136088);
(1,60389038382,0,-1746558418);
(2,60389676027,0,-1745920773);
(3,60390380941,0,-1745215859);
(0,60390999122,0,-1744597678);
(1,60391569778,0,-1744027022);
(2,60392239138,0,-1743357662);
(3,60392943235,0,-1742653565);
(0,60393537150,0,-1742059650);
(1,60394113807,0,-1741482993);
(2,60394808960,0,-1740787840);
(3,60395499443,0,-1740097357);
(0,60396076911,0,-1739519889);
(1,60396673067,0,-1738923733);
(2,60397381294,0,-1738215506);
(3,60398047923,0,-1737548877);
(0,60398620552,0,-1736976248);
(1,60399246202,0,-1736350598)]).
Definition file_1915 : file := (true, ""%string, [
(2,60399951693,0,-1735645107);
(3,60400588381,0,-1735008419);
(0,60401169802,0,-1734426998);
(1,60401827869,0,-1733768931);
(2,60402516130,0,-1733080670);
(3,60403122675,0,-1732474125);
(0,60403725153,0,-1731871647);
(1,60404410678,0,-1731186122);
(2,60405071607,0,-1730525193);
(3,60405654471,0,-1729942329);
(0,60406285399,0,-1729311401);
(1,60406987679,0,-1728609121);
(2,60407617072,0,-1727979728);
(3,60408187943,0,-1727408857);
(0,60408848168,0,-1726748632);
(1,60409553905,0,-1726042895);
(2,60410153925,0,-1725442875);
(3,60410726509,0,-1724870291);
(0,60411411036,0,-1724185764);
(1,60412106930,0,-1723489870);
(2,60412685499,0,-1722911301);
(3,60413272244,0,-1722324556);
(0,60413972160,0,-1721624640);
(1,60414647012,0,-1720949788);
(2,60415215956,0,-1720380844);
(3,60415825969,0,-1719770831);
(0,60416530140,0,-1719066660);
(1,60417176866,0,-1718419934);
(2,60417749364,0,-1717847436);
(3,60418387602,0,-1717209198);
(0,60419083820,0,-1716512980);
(1,60419700998,0,-1715895802);
(2,60420289122,0,-1715307678);
(3,60420956220,0,-1714640580);
(0,60421632632,0,-1713964168);
(1,60422224843,0,-1713371957);
(2,60422837619,0,-1712759181);
(3,60423529512,0,-1712067288);
(0,60424177211,0,-1711419589);
(1,60424753874,0,-1710842926);
(2,60425396080,0,-1710200720);
(3,60426103230,0,-1709493570);
(0,60426719470,0,-1708877330);
(1,60427292582,0,-1708304218);
(2,60427964188,0,-1707632612);
(3,60428671861,0,-1706924939);
(0,60429261821,0,-1706334979);
(1,60429843485,0,-1705753315);
(2,60430539176,0,-1705057624);
(3,60431230743,0,-1704366057)]).
Definition file_1916 : file := (true, ""%string, [
(0,60431805991,0,-1703790809);
(1,60432406628,0,-1703190172);
(2,60433115371,0,-1702481429);
(3,60433778106,0,-1701818694);
(0,60434352420,0,-1701244380);
(1,60434979641,0,-1700617159);
(2,60435685777,0,-1699911023);
(3,60436315417,0,-1699281383);
(0,60436900755,0,-1698696045);
(1,60437558016,0,-1698038784);
(2,60438245299,0,-1697351501);
(3,60438846139,0,-1696750661);
(0,60439450945,0,-1696145855);
(1,60440135746,0,-1695461054);
(2,60440792918,0,-1694803882);
(3,60441374301,0,-1694222499);
(0,60442003784,0,-1693593016);
(1,60442706797,0,-1692890003);
(2,60443331108,0,-1692265692);
(3,60443903786,3600,-1691693014);
(0,60444560246,3600,-1691036554);
(1,60445267084,3600,-1690329716);
(2,60445863701,3600,-1689733099);
(3,60446438180,3600,-1689158620);
(0,60447120180,3600,-1688476620);
(1,60447815651,3600,-1687781149);
(2,60448394385,3600,-1687202415);
(3,60448980791,3600,-1686616009);
(0,60449681668,3600,-1685915132);
(1,60450354300,3600,-1685242500);
(2,60450926368,3600,-1684670432);
(3,60451534379,3600,-1684062421);
(0,60452241801,3600,-1683354999);
(1,60452886349,3600,-1682710451);
(2,60453462575,3600,-1682134225);
(3,60454100128,3600,-1681496672);
(0,60454798349,3600,-1680798451);
(1,60455415599,0,-1680181201);
(2,60456005962,0,-1679590838);
(3,60456676107,0,-1678920693);
(0,60457350915,0,-1678245885);
(1,60457945820,0,-1677650980);
(2,60458559381,0,-1677037419);
(3,60459256784,0,-1676340016);
(0,60459900534,0,-1675696266);
(1,60460480535,0,-1675116265);
(2,60461124179,0,-1674472621);
(3,60461834765,0,-1673762035);
(0,60462448216,0,-1673148584)]).
Definition file_1917 : file := (true, ""%string, [
(2,60463698087,0,-1671898713);
(3,60464403741,0,-1671193059);
(0,60464993983,0,-1670602817);
(1,60465574881,0,-1670021919);
(2,60466274882,0,-1669321918);
(3,60466960393,0,-1668636407);
(0,60467537375,0,-1668059425);
(1,60468137036,0,-1667459764);
(2,60468847120,0,-1666749680);
(3,60469504382,0,-1666092418);
(0,60470078786,0,-1665518014);
(1,60470706973,0,-1664889827);
(2,60471409819,0,-1664186981);
(3,60472037544,3600,-1663559256);
(0,60472620182,3600,-1662976618);
(1,60473280069,3600,-1662316731);
(2,60473961885,3600,-1661634915);
(3,60474563320,3600,-1661033480);
(0,60475164500,3600,-1660432300);
(1,60475851163,3600,-1659745637);
(2,60476504879,3600,-1659091921);
(3,60477086366,3600,-1658510434);
(0,60477714202,3600,-1657882598);
(1,60478416501,3600,-1657180299);
(2,60479041297,3600,-1656555503);
(3,60479611979,3600,-1655984821);
(0,60480270045,3600,-1655326755);
(1,60480974449,3600,-1654622351);
(2,60481573889,3600,-1654022911);
(3,60482145436,3600,-1653451364);
(0,60482830869,3600,-1652765931);
(1,60483524909,3600,-1652071891);
(2,60484105719,3600,-1651491081);
(3,60484691122,3600,-1650905678);
(0,60485394421,3600,-1650202379);
(1,60486068479,0,-1649528321);
(2,60486640246,0,-1648956554);
(3,60487251237,0,-1648345563);
(0,60487958403,0,-1647638397);
(1,60488606235,0,-1646990565);
(2,60489181101,0,-1646415699);
(3,60489824572,0,-1645772228);
(0,60490520836,0,-1645075964);
(1,60491140117,0,-1644456683);
(2,60491731228,0,-1643865572);
(3,60492406410,0,-1643190390);
(0,60493079769,0,-1642517031);
(1,60493673243,0,-1641923557);
(2,60494291456,0,-1641305344)]).
Definition file_1918 : file := (true, ""%string, [
(3,60494989832,0,-1640606968);
(0,60495633289,0,-1639963511);
(1,60496209487,0,-1639387313);
(2,60496859608,0,-1638737192);
(3,60497567601,0,-1638029199);
(0,60498180271,0,-1637416529);
(1,60498752225,0,-1636844575);
(2,60499431254,0,-1636165546);
(3,60500133894,0,-1635462906);
(0,60500721187,0,-1634875613);
(1,60501303011,0,-1634293789);
(2,60502001572,3600,-1633595228);
(3,60502685636,3600,-1632911164);
(0,60503258138,3600,-1632338662);
(1,60503861207,3600,-1631735593);
(2,60504566755,3600,-1631030045);
(3,60505223192,3600,-1630373608);
(0,60505794130,3600,-1629802670);
(1,60506424787,3600,-1629172013);
(2,60507124393,3600,-1628472407);
(3,60507749999,3600,-1627846801);
(0,60508332222,3600,-1627264578);
(1,60508991458,3600,-1626605342);
(2,60509673537,3600,-1625923263);
(3,60510271367,3600,-1625325433);
(0,60510874952,3600,-1624721848);
(1,60511559081,3600,-1624037719);
(2,60512214917,3600,-1623381883);
(3,60512793231,3600,-1622803569);
(0,60513424156,3600,-1622172644);
(1,60514125378,3600,-1621471422);
(2,60514750960,3600,-1620845840);
(3,60515321234,3600,-1620275566);
(0,60515980969,3600,-1619615831);
(1,60516687699,3600,-1618909101);
(2,60517285274,3600,-1618311526);
(3,60517859936,3600,-1617736864);
(0,60518545448,0,-1617051352);
(1,60519243527,0,-1616353273);
(2,60519821688,0,-1615775112);
(3,60520412121,0,-1615184679);
(0,60521115640,0,-1614481160);
(1,60521791512,0,-1613805288);
(2,60522363164,0,-1613233636);
(3,60522978316,0,-1612618484);
(0,60523687105,0,-1611909695);
(1,60524332233,0,-1611264567);
(2,60524911020,0,-1610685780);
(3,60525556294,0,-1610040506)]).
Definition file_1919 : file := (true, ""%string, [
(0,60526254220,0,-1609342580);
(1,60526868085,0,-1608728715);
(2,60527465024,0,-1608131776);
(3,60528140629,0,-1607456171);
(0,60528812823,0,-1606783977);
(1,60529402339,0,-1606194461);
(2,60530024251,0,-1605572549);
(3,60530723355,0,-1604873445);
(0,60531361920,0,-1604234880);
(1,60531938054,0,-1603658746);
(2,60532587634,0,-1603009166);
(3,60533296516,0,-1602300284);
(0,60533903136,3600,-1601693664);
(1,60534477523,3600,-1601119277);
(2,60535153492,3600,-1600443308);
(3,60535855313,3600,-1599741487);
(0,60536439075,3600,-1599157725);
(1,60537022413,3600,-1598574387);
(2,60537718872,3600,-1597877928);
(3,60538399438,3600,-1597197362);
(0,60538972344,3600,-1596624456);
(1,60539574089,3600,-1596022711);
(2,60540280112,3600,-1595316688);
(3,60540931949,3600,-1594664851);
(0,60541505571,3600,-1594091229);
(1,60542133405,3600,-1593463395);
(2,60542834570,3600,-1592762230);
(3,60543457376,3600,-1592139424);
(0,60544041706,3600,-1591555094);
(1,60544699848,3600,-1590896952);
(2,60545382008,3600,-1590214792);
(3,60545980586,3600,-1589616214);
(0,60546584170,3600,-1589012630);
(1,60547270843,3600,-1588325957);
(2,60547924507,3600,-1587672293);
(3,60548506364,3600,-1587090436);
(0,60549136355,3600,-1586460445);
(1,60549842151,0,-1585754649);
(2,60550465160,0,-1585131640);
(3,60551039170,0,-1584557630);
(0,60551699928,0,-1583896872);
(1,60552409332,0,-1583187468);
(2,60553006531,0,-1582590269);
(3,60553582895,0,-1582013905);
(0,60554272776,0,-1581324024);
(1,60554969182,0,-1580627618);
(2,60555549794,0,-1580047006);
(3,60556140194,0,-1579456606);
(0,60556848903,0,-1578747897);
(1,60557520250,0,-1578076550)]).
Definition file_1920 : file := (true, ""%string, [
(2,60558095058,0,-1577501742);
(3,60558710960,0,-1576885840);
(0,60559421212,0,-1576175588);
(1,60560062626,0,-1575534174);
(2,60560642501,0,-1574954299);
(3,60561290958,0,-1574305842);
(0,60561984902,0,-1573611898);
(1,60562597738,0,-1572999062);
(2,60563193109,0,-1572403691);
(3,60563872628,0,-1571724172);
(0,60564538569,0,-1571058231);
(1,60565128297,0,-1570468503);
(2,60565748040,3600,-1569848760);
(3,60566448265,3600,-1569148535);
(0,60567083010,3600,-1568513790);
(1,60567658055,3600,-1567938745);
(2,60568307210,3600,-1567289590);
(3,60569013097,3600,-1566583703);
(0,60569619925,3600,-1565976875);
(1,60570191230,3600,-1565405570);
(2,60570868694,3600,-1564728106);
(3,60571565950,3600,-1564030850);
(0,60572151684,3600,-1563445116);
(1,60572731754,3600,-1562865046);
(2,60573429674,3600,-1562167126);
(3,60574107991,3600,-1561488809);
(0,60574681513,3600,-1560915287);
(1,60575282384,3600,-1560314416);
(2,60575988014,3600,-1559608786);
(3,60576641500,3600,-1558955300);
(0,60577213437,3600,-1558383363);
(1,60577843839,3600,-1557752961);
(2,60578543027,3600,-1557053773);
(3,60579169554,3600,-1556427246);
(0,60579751871,3600,-1555844929);
(1,60580414429,3600,-1555182371);
(2,60581095055,3600,-1554501745);
(3,60581696088,3600,-1553900712);
(0,60582300595,3600,-1553296205);
(1,60582990486,3600,-1552606314);
(2,60583644574,0,-1551952226);
(3,60584225777,0,-1551371023);
(0,60584861105,0,-1550735695);
(1,60585567180,0,-1550029620);
(2,60586191750,0,-1549405050);
(3,60586763413,0,-1548833387);
(0,60587431447,0,-1548165353);
(1,60588139239,0,-1547457561);
(2,60588736705,0,-1546860095)]).
Definition file_1921 : file := (true, ""%string, [
(3,60589312525,0,-1546284275);
(0,60590006810,0,-1545589990);
(1,60590701830,0,-1544894970);
(2,60591280060,0,-1544316740);
(3,60591873727,0,-1543723073);
(0,60592581410,0,-1543015390);
(1,60593251957,0,-1542344843);
(2,60593823122,0,-1541773678);
(3,60594444161,0,-1541152639);
(0,60595150167,0,-1540446633);
(1,60595789707,0,-1539807093);
(2,60596367507,0,-1539229293);
(3,60597018808,0,-1538577992);
(0,60597709554,3600,-1537887246);
(1,60598318265,3600,-1537278535);
(2,60598914535,3600,-1536682265);
(3,60599592590,3600,-1536004210);
(0,60600258135,3600,-1535338665);
(1,60600842676,3600,-1534754124);
(2,60601464914,3600,-1534131886);
(3,60602161593,3600,-1533435207);
(0,60602796910,3600,-1532799890);
(1,60603368366,3600,-1532228434);
(2,60604018890,3600,-1531577910);
(3,60604723136,3600,-1530873664);
(0,60605328995,3600,-1530267805);
(1,60605900139,3600,-1529696661);
(2,60606576489,3600,-1529020311);
(3,60607275680,3600,-1528321120);
(0,60607858665,3600,-1527738135);
(1,60608441602,3600,-1527155198);
(2,60609137333,3600,-1526459467);
(3,60609819118,3600,-1525777682);
(0,60610390373,3600,-1525206427);
(1,60610994911,3600,-1524601889);
(2,60611700028,3600,-1523896772);
(3,60612355060,3600,-1523241740);
(0,60612927941,3600,-1522668859);
(1,60613560634,0,-1522036166);
(2,60614261986,0,-1521334814);
(3,60614886674,0,-1520710126);
(0,60615473878,0,-1520122922);
(1,60616137196,0,-1519459604);
(2,60616820343,0,-1518776457);
(3,60617418056,0,-1518178744);
(0,60618029107,0,-1517567693);
(1,60618719961,0,-1516876839);
(2,60619373426,0,-1516223374);
(3,60619953260,0,-1515643540);
(0,60620593148,0,-1515003652)]).
Definition file_1922 : file := (true, ""%string, [
(1,60621301392,0,-1514295408);
(2,60621921386,0,-1513675414);
(3,60622495212,0,-1513101588);
(0,60623164091,0,-1512432709);
(1,60623873494,0,-1511723306);
(2,60624465453,0,-1511131347);
(3,60625045103,0,-1510551697);
(0,60625738070,0,-1509858730);
(1,60626431249,0,-1509165551);
(2,60627006857,0,-1508589943);
(3,60627602611,0,-1507994189);
(0,60628309432,3600,-1507287368);
(1,60628974261,3600,-1506622539);
(2,60629546582,3600,-1506050218);
(3,60630166489,3600,-1505430311);
(0,60630872689,3600,-1504724111);
(1,60631505682,3600,-1504091118);
(2,60632085928,3600,-1503510872);
(3,60632734713,3600,-1502862087);
(0,60633425095,3600,-1502171705);
(1,60634030188,3600,-1501566612);
(2,60634627046,3600,-1500969754);
(3,60635304286,3600,-1500292514);
(0,60635967601,3600,-1499629199);
(1,60636552739,3600,-1499044061);
(2,60637172821,3600,-1498423979);
(3,60637871528,3600,-1497725272);
(0,60638503636,3600,-1497093164);
(1,60639078161,3600,-1496518639);
(2,60639725930,3600,-1495870870);
(3,60640433202,3600,-1495163598);
(0,60641037247,3600,-1494559553);
(1,60641610969,3600,-1493985831);
(2,60642287272,3600,-1493309528);
(3,60642987639,3600,-1492609161);
(0,60643571886,3600,-1492024914);
(1,60644155238,3600,-1491441562);
(2,60644854753,3600,-1490742047);
(3,60645534943,0,-1490061857);
(0,60646109993,0,-1489486807);
(1,60646713957,0,-1488882843);
(2,60647423842,0,-1488172958);
(3,60648076363,0,-1487520437);
(0,60648653182,0,-1486943618);
(1,60649287272,0,-1486309528);
(2,60649989867,0,-1485606933);
(3,60650613656,0,-1484983144);
(0,60651202823,0,-1484393977);
(1,60651870719,0,-1483726081)]).
Definition file_1923 : file := (true, ""%string, [
(2,60652550057,0,-1483046743);
(3,60653148908,0,-1482447892);
(0,60653760107,0,-1481836693);
(1,60654455886,0,-1481140914);
(2,60655103636,0,-1480493164);
(3,60655684604,0,-1479912196);
(0,60656324884,0,-1479271916);
(1,60657033945,0,-1478562855);
(2,60657650641,0,-1477946159);
(3,60658223508,0,-1477373292);
(0,60658894313,0,-1476702487);
(1,60659599260,0,-1475997540);
(2,60660191371,0,-1475405429);
(3,60660768188,0,-1474828612);
(0,60661463335,0,-1474133465);
(1,60662150355,3600,-1473446445);
(2,60662726956,3600,-1472869844);
(3,60663320303,3600,-1472276497);
(0,60664027119,3600,-1471569681);
(1,60664688651,3600,-1470908149);
(2,60665259958,3600,-1470336842);
(3,60665879924,3600,-1469716876);
(0,60666583307,3600,-1469013493);
(1,60667217145,3600,-1468379655);
(2,60667794191,3600,-1467802609);
(3,60668445356,3600,-1467151444);
(0,60669132251,3600,-1466464549);
(1,60669739949,3600,-1465856851);
(2,60670333904,3600,-1465262896);
(3,60671013749,3600,-1464583051);
(0,60671675761,3600,-1463921039);
(1,60672262087,3600,-1463334713);
(2,60672882543,3600,-1462714257);
(3,60673582114,3600,-1462014686);
(0,60674215925,3600,-1461380875);
(1,60674789117,0,-1460807683);
(2,60675441384,0,-1460155416);
(3,60676147862,0,-1459448938);
(0,60676754708,0,-1458842092);
(1,60677326456,0,-1458270344);
(2,60678008853,0,-1457587947);
(3,60678708636,0,-1456888164);
(0,60679294028,0,-1456302772);
(1,60679878066,0,-1455718734);
(2,60680581157,0,-1455015643);
(3,60681262215,0,-1454334585);
(0,60681835876,0,-1453760924);
(1,60682444626,0,-1453152174);
(2,60683153653,0,-1452443147);
(3,60683807254,0,-1451789546)]).
Definition file_1924 : file := (true, ""%string, [
(0,60684382147,0,-1451214653);
(1,60685022588,0,-1450574212);
(2,60685721863,0,-1449874937);
(3,60686344396,0,-1449252404);
(0,60686933999,0,-1448662801);
(1,60687605293,0,-1447991507);
(2,60688282097,0,-1447314703);
(3,60688876542,0,-1446720258);
(0,60689491152,0,-1446105648);
(1,60690185444,0,-1445411356);
(2,60690832265,0,-1444764535);
(3,60691407887,0,-1444188913);
(0,60692051913,0,-1443544887);
(1,60692757155,0,-1442839645);
(2,60693372671,3600,-1442224129);
(3,60693942500,3600,-1441654300);
(0,60694614044,3600,-1440982756);
(1,60695316833,3600,-1440279967);
(2,60695905945,3600,-1439690855);
(3,60696483367,3600,-1439113433);
(0,60697175644,3600,-1438421156);
(1,60697863417,3600,-1437733383);
(2,60698436075,3600,-1437160725);
(3,60699032137,3600,-1436564663);
(0,60699735280,3600,-1435861520);
(1,60700398375,3600,-1435198425);
(2,60700967323,3600,-1434629477);
(3,60701589355,3600,-1434007445);
(0,60702291674,3600,-1433305126);
(1,60702925301,3600,-1432671499);
(2,60703503513,3600,-1432093287);
(3,60704154687,3600,-1431442113);
(0,60704843759,3600,-1430753041);
(1,60705449162,3600,-1430147638);
(2,60706047563,3600,-1429549237);
(3,60706726631,0,-1428870169);
(0,60707391295,0,-1428205505);
(1,60707975435,0,-1427621365);
(2,60708601257,0,-1426995543);
(3,60709301782,0,-1426295018);
(0,60709935376,0,-1425661424);
(1,60710509152,0,-1425087648);
(2,60711165052,0,-1424431748);
(3,60711874780,0,-1423722020);
(0,60712478118,0,-1423118682);
(1,60713053830,0,-1422542970);
(2,60713737435,0,-1421859365);
(3,60714439908,0,-1421156892);
(0,60715021577,0,-1420575223)]).
Definition file_1925 : file := (true, ""%string, [
(1,60715610695,0,-1419986105);
(2,60716314048,0,-1419282752);
(3,60716993572,0,-1418603228);
(0,60717566758,0,-1418030042);
(1,60718178541,0,-1417418259);
(2,60718888158,0,-1416708642);
(3,60719535655,0,-1416061145);
(0,60720113591,0,-1415483209);
(1,60720754003,0,-1414842797);
(2,60721453330,0,-1414143470);
(3,60722068875,0,-1413527925);
(0,60722661869,0,-1412934931);
(1,60723331952,0,-1412264848);
(2,60724006476,0,-1411590324);
(3,60724597211,0,-1410999589);
(0,60725212173,3600,-1410384627);
(1,60725906416,3600,-1409690384);
(2,60726548647,3600,-1409048153);
(3,60727124787,3600,-1408472013);
(0,60727765773,3600,-1407831027);
(1,60728472291,3600,-1407124509);
(2,60729083345,3600,-1406513455);
(3,60729655487,3600,-1405941313);
(0,60730323473,3600,-1405273327);
(1,60731027010,3600,-1404569790);
(2,60731614496,3600,-1403982304);
(3,60732192912,3600,-1403403888);
(0,60732884427,3600,-1402712373);
(1,60733570995,3600,-1402025805);
(2,60734145570,3600,-1401451230);
(3,60734740313,3600,-1400856487);
(0,60735446086,3600,-1400150714);
(1,60736106792,3600,-1399490008);
(2,60736679577,3600,-1398917223);
(3,60737299965,3600,-1398296835);
(0,60738005526,3600,-1397591274);
(1,60738637880,3600,-1396958920);
(2,60739219349,3600,-1396377451);
(3,60739871708,0,-1395725092);
(0,60740561113,0,-1395035687);
(1,60741167911,0,-1394428889);
(2,60741767761,0,-1393829039);
(3,60742451631,0,-1393145169);
(0,60743113039,0,-1392483761);
(1,60743700400,0,-1391896400);
(2,60744327056,0,-1391269744);
(3,60745032682,0,-1390564118);
(0,60745662297,0,-1389934503);
(1,60746238572,0,-1389358228);
(2,60746896912,0,-1388699888)]).
Definition file_1926 : file := (true, ""%string, [
(3,60747607407,0,-1387989393);
(0,60748209304,0,-1387387496);
(1,60748785095,0,-1386811705);
(2,60749472926,0,-1386123874);
(3,60750170752,0,-1385426048);
(0,60750753667,0,-1384843133);
(1,60751341399,0,-1384255401);
(2,60752047870,0,-1383548930);
(3,60752720981,0,-1382875819);
(0,60753295283,0,-1382301517);
(1,60753906718,0,-1381690082);
(2,60754615290,0,-1380981510);
(3,60755259013,0,-1380337787);
(0,60755835476,0,-1379761324);
(1,60756477742,3600,-1379119058);
(2,60757172286,3600,-1378424514);
(3,60757787619,3600,-1377809181);
(0,60758377014,3600,-1377219786);
(1,60759049643,3600,-1376547157);
(2,60759719397,3600,-1375877403);
(3,60760310975,3600,-1375285825);
(0,60760922964,3600,-1374673836);
(1,60761617988,3600,-1373978812);
(2,60762258839,3600,-1373337961);
(3,60762834198,3600,-1372762602);
(0,60763475233,3600,-1372121567);
(1,60764180113,3600,-1371416687);
(2,60764793253,3600,-1370803547);
(3,60765362736,3600,-1370234064);
(0,60766033739,3600,-1369563061);
(1,60766735148,3600,-1368861652);
(2,60767325490,3600,-1368271310);
(3,60767901642,3600,-1367695158);
(0,60768596679,3600,-1367000121);
(1,60769283211,3600,-1366313589);
(2,60769858741,3600,-1365738059);
(3,60770454464,3600,-1365142336);
(0,60771161567,0,-1364435233);
(1,60771824865,0,-1363771935);
(2,60772396498,0,-1363200302);
(3,60773021808,0,-1362574992);
(0,60773726039,0,-1361870761);
(1,60774361307,0,-1361235493);
(2,60774942059,0,-1360654741);
(3,60775600530,0,-1359996270);
(0,60776287885,0,-1359308915);
(1,60776894873,0,-1358701927);
(2,60777497348,0,-1358099452);
(3,60778184425,0,-1357412375)]).
Definition file_1927 : file := (true, ""%string, [
(0,60778844887,0,-1356751913);
(1,60779429070,0,-1356167730);
(2,60780061638,0,-1355535162);
(3,60780766056,0,-1354830744);
(0,60781395290,0,-1354201510);
(1,60781967690,0,-1353629110);
(2,60782631497,0,-1352965303);
(3,60783338682,0,-1352258118);
(0,60783938741,0,-1351658059);
(1,60784513398,0,-1351083402);
(2,60785202258,0,-1350394542);
(3,60785897791,0,-1349699009);
(0,60786476721,0,-1349120079);
(1,60787066812,0,-1348529988);
(2,60787769735,3600,-1347827065);
(3,60788442088,3600,-1347154712);
(0,60789012055,3600,-1346584745);
(1,60789626753,3600,-1345970047);
(2,60790330991,3600,-1345265809);
(3,60790973633,3600,-1344623167);
(0,60791548013,3600,-1344048787);
(1,60792191261,3600,-1343405539);
(2,60792884405,3600,-1342712395);
(3,60793496963,3600,-1342099837);
(0,60794087566,3600,-1341509234);
(1,60794758348,3600,-1340838452);
(2,60795429806,3600,-1340166994);
(3,60796017824,3600,-1339578976);
(0,60796633014,3600,-1338963786);
(1,60797325945,3600,-1338270855);
(2,60797968703,3600,-1337628097);
(3,60798542109,3600,-1337054691);
(0,60799185934,3600,-1336410866);
(1,60799891503,3600,-1335705297);
(2,60800504099,3600,-1335092701);
(3,60801075038,3600,-1334521762);
(0,60801747039,3600,-1333849761);
(1,60802452095,0,-1333144705);
(2,60803039736,0,-1332557064);
(3,60803620356,0,-1331976444);
(0,60804315450,0,-1331281350);
(1,60805005332,0,-1330591468);
(2,60805579008,0,-1330017792);
(3,60806179728,0,-1329417072);
(0,60806887760,0,-1328709040);
(1,60807550482,0,-1328046318);
(2,60808123942,0,-1327472858);
(3,60808752286,0,-1326844514);
(0,60809458405,0,-1326138395)]).
Definition file_1928 : file := (true, ""%string, [
(2,60810674867,0,-1324921933);
(3,60811334149,0,-1324262651);
(0,60812021959,0,-1323574841);
(1,60812623549,0,-1322973251);
(2,60813231048,0,-1322365752);
(3,60813918437,0,-1321678363);
(0,60814575702,0,-1321021098);
(1,60815157665,0,-1320439135);
(2,60815791595,0,-1319805205);
(3,60816496900,0,-1319099900);
(0,60817120208,0,-1318476592);
(1,60817694068,0,-1317902732);
(2,60818355473,0,-1317241327);
(3,60819062984,0,-1316533816);
(0,60819657930,0,-1315938870);
(1,60820234887,3600,-1315361913);
(2,60820920685,3600,-1314676115);
(3,60821614229,3600,-1313982571);
(0,60822191674,3600,-1313405126);
(1,60822781861,3600,-1312814939);
(2,60823484007,3600,-1312112793);
(3,60824152239,3600,-1311444561);
(0,60824724141,3600,-1310872659);
(1,60825336423,3600,-1310260377);
(2,60826042150,3600,-1309554650);
(3,60826680951,3600,-1308915849);
(0,60827258154,3600,-1308338646);
(1,60827899090,3600,-1307697710);
(2,60828593507,3600,-1307003293);
(3,60829205070,3600,-1306391730);
(0,60829796927,3600,-1305799873);
(1,60830468488,3600,-1305128312);
(2,60831138936,3600,-1304457864);
(3,60831729384,3600,-1303867416);
(0,60832344001,3600,-1303252799);
(1,60833041041,3600,-1302555759);
(2,60833681052,3600,-1301915748);
(3,60834258479,3600,-1301338321);
(0,60834902177,0,-1300694623);
(1,60835611963,0,-1299984837);
(2,60836222690,0,-1299374110);
(3,60836796503,0,-1298800297);
(0,60837471369,0,-1298125431);
(1,60838176962,0,-1297419838);
(2,60838765584,0,-1296831216);
(3,60839346787,0,-1296250013);
(0,60840047212,0,-1295549588);
(1,60840733412,0,-1294863388);
(2,60841310105,0,-1294286695)]).
Definition file_1929 : file := (true, ""%string, [
(3,60841910758,0,-1293686042);
(0,60842622543,0,-1292974257);
(1,60843280503,0,-1292316297);
(2,60843856159,0,-1291740641);
(3,60844486318,0,-1291110482);
(0,60845190989,0,-1290405811);
(1,60845818966,0,-1289777834);
(2,60846404337,0,-1289192463);
(3,60847067422,0,-1288529378);
(0,60847749492,0,-1287847308);
(1,60848350935,0,-1287245865);
(2,60848956001,0,-1286640799);
(3,60849646214,0,-1285950586);
(0,60850298042,0,-1285298758);
(1,60850879809,0,-1284716991);
(2,60851512077,3600,-1284084723);
(3,60852216425,3600,-1283380375);
(0,60852838109,3600,-1282758691);
(1,60853409809,3600,-1282186991);
(2,60854071827,3600,-1281524973);
(3,60854775261,3600,-1280821539);
(0,60855371823,3600,-1280224977);
(1,60855945283,3600,-1279651517);
(2,60856632946,3600,-1278963854);
(3,60857322883,3600,-1278273917);
(0,60857902036,3600,-1277694764);
(1,60858489882,3600,-1277106918);
(2,60859192896,3600,-1276403904);
(3,60859861001,3600,-1275735799);
(0,60860432412,3600,-1275164388);
(1,60861045627,3600,-1274551173);
(2,60861750195,3600,-1273846605);
(3,60862392147,3600,-1273204653);
(0,60862967227,3600,-1272629573);
(1,60863612147,3600,-1271984653);
(2,60864304605,3600,-1271292195);
(3,60864919660,3600,-1270677140);
(0,60865510711,3600,-1270086089);
(1,60866186646,0,-1269410154);
(2,60866856406,0,-1268740394);
(3,60867447741,0,-1268149059);
(0,60868065639,0,-1267531161);
(1,60868764586,0,-1266832214);
(2,60869405683,0,-1266191117);
(3,60869981130,0,-1265615670);
(0,60870631734,0,-1264965066);
(1,60871340546,0,-1264256254);
(2,60871952307,0,-1263644493);
(3,60872524110,0,-1263072690)]).
Definition file_1930 : file := (true, ""%string, [
(1,60873909079,0,-1261687721);
(2,60874496471,0,-1261100329);
(3,60875078874,0,-1260517926);
(0,60875780886,0,-1259815914);
(1,60876465954,0,-1259130846);
(2,60877039144,0,-1258557656);
(3,60877644303,0,-1257952497);
(0,60878352828,0,-1257243972);
(1,60879009629,0,-1256587171);
(2,60879581940,0,-1256014860);
(3,60880216410,0,-1255380390);
(0,60880916883,0,-1254679917);
(1,60881541916,0,-1254054884);
(2,60882126546,3600,-1253470254);
(3,60882790215,3600,-1252806585);
(0,60883470614,3600,-1252126186);
(1,60884067212,3600,-1251529588);
(2,60884674190,3600,-1250922610);
(3,60885361441,3600,-1250235359);
(0,60886013870,3600,-1249582930);
(1,60886591001,3600,-1249005799);
(2,60887225535,3600,-1248371265);
(3,60887926966,3600,-1247669834);
(0,60888548833,3600,-1247047967);
(1,60889118598,3600,-1246478202);
(2,60889780898,3600,-1245815902);
(3,60890484657,3600,-1245112143);
(0,60891079330,3600,-1244517470);
(1,60891654385,3600,-1243942415);
(2,60892340288,3600,-1243256512);
(3,60893033489,3600,-1242563311);
(0,60893609817,3600,-1241986983);
(1,60894201373,3600,-1241395427);
(2,60894902905,3600,-1240693895);
(3,60895573976,3600,-1240022824);
(0,60896144476,3600,-1239452324);
(1,60896761022,3600,-1238835778);
(2,60897466580,0,-1238130220);
(3,60898108320,0,-1237488480);
(0,60898686444,0,-1236910356);
(1,60899332913,0,-1236263887);
(2,60900028136,0,-1235568664);
(3,60900640056,0,-1234956744);
(0,60901237288,0,-1234359512);
(1,60901913906,0,-1233682894);
(2,60902584841,0,-1233011959);
(3,60903173249,0,-1232423551);
(0,60903797066,0,-1231799734);
(1,60904497564,0,-1231099236)]).
Definition file_1931 : file := (true, ""%string, [
(2,60905135736,0,-1230461064);
(3,60905711415,0,-1229885385);
(0,60906364582,0,-1229232218);
(1,60907075536,0,-1228521264);
(2,60907681589,0,-1227915211);
(3,60908256625,0,-1227340175);
(0,60908937083,0,-1226659717);
(1,60909640903,0,-1225955897);
(2,60910223781,0,-1225373019);
(3,60910809345,0,-1224787455);
(0,60911509865,0,-1224086935);
(1,60912190997,0,-1223405803);
(2,60912763513,0,-1222833287);
(3,60913368960,0,-1222227840);
(0,60914077227,0,-1221519573);
(1,60914727525,3600,-1220869275);
(2,60915302012,3600,-1220294788);
(3,60915934163,3600,-1219662637);
(0,60916634924,3600,-1218961876);
(1,60917254674,3600,-1218342126);
(2,60917841129,3600,-1217755671);
(3,60918502770,3600,-1217094030);
(0,60919182117,3600,-1216414683);
(1,60919777378,3600,-1215819422);
(2,60920383574,3600,-1215213226);
(3,60921071551,3600,-1214525249);
(0,60921721181,3600,-1213875619);
(1,60922300591,3600,-1213296209);
(2,60922932416,3600,-1212664384);
(3,60923636898,3600,-1211959902);
(0,60924256001,3600,-1211340799);
(1,60924829039,3600,-1210767761);
(2,60925489768,3600,-1210107032);
(3,60926196096,3600,-1209400704);
(0,60926790366,3600,-1208806434);
(1,60927367079,3600,-1208229721);
(2,60928055144,3600,-1207541656);
(3,60928748129,0,-1206848671);
(0,60929327140,0,-1206269660);
(1,60929918405,0,-1205678395);
(2,60930624913,0,-1204971887);
(3,60931293483,0,-1204303317);
(0,60931868140,0,-1203728660);
(1,60932484818,0,-1203111982);
(2,60933193883,0,-1202402917);
(3,60933833472,0,-1201763328);
(0,60934414621,0,-1201182179);
(1,60935064184,0,-1200532616);
(2,60935757905,0,-1199838895)]).
Definition file_1932 : file := (true, ""%string, [
(3,60936369842,0,-1199226958);
(0,60936967807,0,-1198628993);
(1,60937649678,0,-1197947122);
(2,60938315134,0,-1197281666);
(3,60938904807,0,-1196691993);
(0,60939528405,0,-1196068395);
(1,60940232130,0,-1195364670);
(2,60940865311,0,-1194731489);
(3,60941441064,0,-1194155736);
(0,60942095147,0,-1193501653);
(1,60942804066,0,-1192792734);
(2,60943408678,0,-1192188122);
(3,60943981488,0,-1191615312);
(0,60944664135,0,-1190932665);
(1,60945362106,0,-1190234694);
(2,60945946012,3600,-1189650788);
(3,60946528499,3600,-1189068301);
(0,60947230351,3600,-1188366449);
(1,60947906499,3600,-1187690301);
(2,60948479282,3600,-1187117518);
(3,60949083309,3600,-1186513491);
(0,60949790196,3600,-1185806604);
(1,60950439568,3600,-1185157232);
(2,60951011853,3600,-1184584947);
(3,60951645372,3600,-1183951428);
(0,60952342779,3600,-1183254021);
(1,60952964851,3600,-1182631949);
(2,60953547950,3600,-1182048850);
(3,60954212506,3600,-1181384294);
(0,60954889281,3600,-1180707519);
(1,60955486895,3600,-1180109905);
(2,60956091661,3600,-1179505139);
(3,60956781722,3600,-1178815078);
(0,60957431630,3600,-1178165170);
(1,60958011006,3600,-1177585794);
(2,60958645556,3600,-1176951244);
(3,60959350084,3600,-1176246716);
(0,60959971723,3600,-1175625077);
(1,60960542757,0,-1175054043);
(2,60961209491,0,-1174387309);
(3,60961914894,0,-1173681906);
(0,60962511316,0,-1173085484);
(1,60963087014,0,-1172509786);
(2,60963780528,0,-1171816272);
(3,60964473510,0,-1171123290);
(0,60965052192,0,-1170544608);
(1,60965646244,0,-1169950556);
(2,60966354104,0,-1169242696);
(3,60967023728,0,-1168573072);
(0,60967596198,0,-1168000602)]).
Definition file_1933 : file := (true, ""%string, [
(1,60968218936,0,-1167377864);
(2,60968925384,0,-1166671416);
(3,60969564935,0,-1166031865);
(0,60970144877,0,-1165451923);
(1,60970799717,0,-1164797083);
(2,60971490093,0,-1164106707);
(3,60972098933,0,-1163497867);
(0,60972698751,0,-1162898049);
(1,60973381409,0,-1162215391);
(2,60974045226,0,-1161551574);
(3,60974629515,0,-1160967285);
(0,60975256935,0,-1160339865);
(1,60975957442,0,-1159639358);
(2,60976589936,3600,-1159006864);
(3,60977161099,3600,-1158435701);
(0,60977817602,3600,-1157779198);
(1,60978523201,3600,-1157073599);
(2,60979125910,3600,-1156470890);
(3,60979697469,3600,-1155899331);
(0,60980378894,3600,-1155217906);
(1,60981076419,3600,-1154520381);
(2,60981656716,3600,-1153940084);
(3,60982241162,3600,-1153355638);
(0,60982939373,3600,-1152657427);
(1,60983617274,3600,-1151979526);
(2,60984186660,3600,-1151410140);
(3,60984793455,3600,-1150803345);
(0,60985497784,3600,-1150099016);
(1,60986148258,3600,-1149448542);
(2,60986719892,3600,-1148876908);
(3,60987354618,3600,-1148242182);
(0,60988052831,3600,-1147543969);
(1,60988673625,3600,-1146923175);
(2,60989259832,3600,-1146336968);
(3,60989923885,3600,-1145672915);
(0,60990603579,3600,-1144993221);
(1,60991198592,3600,-1144398208);
(2,60991808812,3600,-1143787988);
(3,60992498820,0,-1143097980);
(0,60993150192,0,-1142446608);
(1,60993728449,0,-1141868351);
(2,60994367918,0,-1141228882);
(3,60995074720,0,-1140522080);
(0,60995694159,0,-1139902641);
(1,60996267506,0,-1139329294);
(2,60996936647,0,-1138660153);
(3,60997645430,0,-1137951370);
(0,60998237554,0,-1137359246);
(1,60998818101,0,-1136778699)]).
Definition file_1934 : file := (true, ""%string, [
(3,61000205750,0,-1135391050);
(0,61000781874,0,-1134814926);
(1,61001380185,0,-1134216615);
(2,61002088298,0,-1133508502);
(3,61002753685,0,-1132843115);
(0,61003327495,0,-1132269305);
(1,61003951497,0,-1131645303);
(2,61004658412,0,-1130938388);
(3,61005290738,0,-1130306062);
(0,61005874219,0,-1129722581);
(1,61006527935,0,-1129068865);
(2,61007217404,0,-1128379396);
(3,61007820528,0,-1127776272);
(0,61008422343,0,-1127174457);
(1,61009104082,0,-1126492718);
(2,61009764438,3600,-1125832362);
(3,61010347300,3600,-1125249500);
(0,61010973105,3600,-1124623695);
(1,61011674408,3600,-1123922392);
(2,61012302160,3600,-1123294640);
(3,61012875207,3600,-1122721593);
(0,61013527950,3600,-1122068850);
(1,61014235011,3600,-1121361789);
(2,61014834536,3600,-1120762264);
(3,61015408131,3600,-1120188669);
(0,61016087176,3600,-1119509624);
(1,61016784773,3600,-1118812027);
(2,61017365340,3600,-1118231460);
(3,61017949665,3600,-1117647135);
(0,61018649115,3600,-1116947685);
(1,61019325160,3600,-1116271640);
(2,61019897781,3600,-1115699019);
(3,61020502829,3600,-1115093971);
(0,61021210751,3600,-1114386049);
(1,61021859127,3600,-1113737673);
(2,61022434679,3600,-1113162121);
(3,61023068974,3600,-1112527826);
(0,61023769410,0,-1111827390);
(1,61024390116,0,-1111206684);
(2,61024978783,0,-1110618017);
(3,61025646105,0,-1109950695);
(0,61026324125,0,-1109272675);
(1,61026921561,0,-1108675239);
(2,61027532699,0,-1108064101);
(3,61028228316,0,-1107368484);
(0,61028875428,0,-1106721372);
(1,61029456717,0,-1106140083);
(2,61030097564,0,-1105499236);
(3,61030807694,0,-1104789106)]).
Definition file_1935 : file := (true, ""%string, [
(0,61031423979,0,-1104172821);
(1,61031998510,0,-1103598290);
(2,61032671037,0,-1102925763);
(3,61033377553,0,-1102219247);
(0,61033969653,0,-1101627147);
(1,61034549101,0,-1101047699);
(2,61035247019,0,-1100349781);
(3,61035934478,0,-1099662322);
(0,61036512081,0,-1099084719);
(1,61037109045,0,-1098487755);
(2,61037818334,0,-1097778466);
(3,61038478246,0,-1097118554);
(0,61039051926,0,-1096544874);
(1,61039676527,0,-1095920273);
(2,61040380271,3600,-1095216529);
(3,61041010859,3600,-1094585941);
(0,61041591481,3600,-1094005319);
(1,61042247613,3600,-1093349187);
(2,61042931910,3600,-1092664890);
(3,61043535901,3600,-1092060899);
(0,61044134010,3600,-1091462790);
(1,61044817716,3600,-1090779084);
(2,61045474885,3600,-1090121915);
(3,61046058143,3600,-1089538657);
(0,61046682338,3600,-1088914462);
(1,61047383305,3600,-1088213495);
(2,61048011704,3600,-1087585096);
(3,61048583005,3600,-1087013795);
(0,61049237596,3600,-1086359204);
(1,61049942620,3600,-1085654180);
(2,61050545071,3600,-1085051729);
(3,61051115912,3600,-1084480888);
(0,61051798847,3600,-1083797953);
(1,61052495206,3600,-1083101594);
(2,61053077932,3600,-1082518868);
(3,61053661410,3600,-1081935390);
(0,61054363769,3600,-1081233031);
(1,61055041184,3600,-1080555616);
(2,61055613549,0,-1079983251);
(3,61056221782,0,-1079375018);
(0,61056929696,0,-1078667104);
(1,61057581103,0,-1078015697);
(2,61058155284,0,-1077441516);
(3,61058795717,0,-1076801083);
(0,61059494101,0,-1076102699);
(1,61060116453,0,-1075480347);
(2,61060705775,0,-1074891025);
(3,61061378225,0,-1074218575);
(0,61062054497,0,-1073542303)]).
Definition file_1936 : file := (true, ""%string, [
(1,61062650070,0,-1072946730);
(2,61063265620,0,-1072331180);
(3,61063962096,0,-1071634704);
(0,61064608622,0,-1070988178);
(1,61065185721,0,-1070411079);
(2,61065832651,0,-1069764149);
(3,61066539975,0,-1069056825);
(0,61067155302,0,-1068441498);
(1,61067726841,0,-1067869959);
(2,61068402739,0,-1067194061);
(3,61069106133,0,-1066490667);
(0,61069695218,0,-1065901582);
(1,61070275265,0,-1065321535);
(2,61070971533,0,-1064625267);
(3,61071657683,0,-1063939117);
(0,61072230787,3600,-1063366013);
(1,61072830875,3600,-1062765925);
(2,61073535660,3600,-1062061140);
(3,61074195120,3600,-1061401680);
(0,61074765317,3600,-1060831483);
(1,61075392282,3600,-1060204518);
(2,61076092968,3600,-1059503832);
(3,61076721901,3600,-1058874899);
(0,61077302123,3600,-1058294677);
(1,61077957734,3600,-1057639066);
(2,61078642532,3600,-1056954268);
(3,61079243294,3600,-1056353506);
(0,61079843972,3600,-1055752828);
(1,61080525401,3600,-1055071399);
(2,61081184923,3600,-1054411877);
(3,61081765213,3600,-1053831587);
(0,61082392885,3600,-1053203915);
(1,61083093009,3600,-1052503791);
(2,61083722334,3600,-1051874466);
(3,61084293321,3600,-1051303479);
(0,61084950103,3600,-1050646697);
(1,61085657585,3600,-1049939215);
(2,61086258141,3600,-1049338659);
(3,61086832198,0,-1048764602);
(0,61087515650,0,-1048081150);
(1,61088216020,0,-1047380780);
(2,61088795926,0,-1046800874);
(3,61089384577,0,-1046212223);
(0,61090087335,0,-1045509465);
(1,61090766311,0,-1044830489);
(2,61091338343,0,-1044258457);
(3,61091950836,0,-1043645964);
(0,61092660279,0,-1042936521);
(1,61093308550,0,-1042288250);
(2,61093886392,0,-1041710408)]).
Definition file_1937 : file := (true, ""%string, [
(3,61094528574,0,-1041068226);
(0,61095228397,0,-1040368403);
(1,61095844885,0,-1039751915);
(2,61096439664,0,-1039157136);
(3,61097112318,0,-1038484482);
(0,61097787263,0,-1037809537);
(1,61098378546,0,-1037218254);
(2,61098997324,0,-1036599476);
(3,61099694281,0,-1035902519);
(0,61100335913,0,-1035260887);
(1,61100912720,0,-1034684080);
(2,61101558672,0,-1034038128);
(3,61102266829,0,-1033329971);
(0,61102876218,0,-1032720582);
(1,61103450012,0,-1032146788);
(2,61104122575,3600,-1031474225);
(3,61104825422,3600,-1030771378);
(0,61105411089,3600,-1030185711);
(1,61105992538,3600,-1029604262);
(2,61106686651,3600,-1028910149);
(3,61107369812,3600,-1028226988);
(0,61107943406,3600,-1027653394);
(1,61108542154,3600,-1027054646);
(2,61109247601,3600,-1026349199);
(3,61109902953,3600,-1025693847);
(0,61110475975,3600,-1025120825);
(1,61111100184,3600,-1024496616);
(2,61111802790,3600,-1023794010);
(3,61112429217,3600,-1023167583);
(0,61113011823,3600,-1022584977);
(1,61113666483,3600,-1021930317);
(2,61114351693,3600,-1021245107);
(3,61114953316,3600,-1020643484);
(0,61115554379,3600,-1020042421);
(1,61116238587,3600,-1019358213);
(2,61116896020,3600,-1018700780);
(3,61117479887,3600,-1018116913);
(0,61118107022,0,-1017489778);
(1,61118811969,0,-1016784831);
(2,61119438523,0,-1016158277);
(3,61120013249,0,-1015583551);
(0,61120671351,0,-1014925449);
(1,61121381576,0,-1014215224);
(2,61121981424,0,-1013615376);
(3,61122557142,0,-1013039658);
(0,61123245071,0,-1012351729);
(1,61123943541,0,-1011653259);
(2,61124525557,0,-1011071243);
(3,61125114059,0,-1010482741)]).
Definition file_1938 : file := (true, ""%string, [
(0,61125821909,0,-1009774891);
(1,61126495951,0,-1009100849);
(2,61127070785,0,-1008526015);
(3,61127683804,0,-1007912996);
(0,61128394529,0,-1007202271);
(1,61129038717,0,-1006558083);
(2,61129617244,0,-1005979556);
(3,61130262288,0,-1005334512);
(0,61130958048,0,-1004638752);
(1,61131573306,0,-1004023494);
(2,61132166085,0,-1003430715);
(3,61132842380,0,-1002754420);
(0,61133511165,0,-1002085635);
(1,61134102610,0,-1001494190);
(2,61134718830,3600,-1000877970);
(3,61135416895,3600,-1000179905);
(0,61136054899,3600,-999541901);
(1,61136630647,3600,-998966153);
(2,61137275932,3600,-998320868);
(3,61137981397,3600,-997615403);
(0,61138591197,3600,-997005603);
(1,61139161952,3600,-996434848);
(2,61139836037,3600,-995760763);
(3,61140534758,3600,-995062042);
(0,61141122608,3600,-994474192);
(1,61141700806,3600,-993895994);
(2,61142396712,3600,-993200088);
(3,61143077976,3600,-992518824);
(0,61143652420,3600,-991944380);
(1,61144250346,3600,-991346454);
(2,61144955863,3600,-990640937);
(3,61145613062,3600,-989983738);
(0,61146184633,3600,-989412167);
(1,61146811612,3600,-988785188);
(2,61147512547,3600,-988084253);
(3,61148142768,3600,-987454032);
(0,61148723580,3600,-986873220);
(1,61149383015,3600,-986213785);
(2,61150066685,0,-985530115);
(3,61150670706,0,-984926094);
(0,61151272906,0,-984323894);
(1,61151960661,0,-983636139);
(2,61152618260,0,-982978540);
(3,61153201287,0,-982395513);
(0,61153833914,0,-981762886);
(1,61154539217,0,-981057583);
(2,61155166970,0,-980429830);
(3,61155739094,0,-979857706);
(0,61156404461,0,-979192339);
(1,61157112858,0,-978483942)]).
Definition file_1939 : file := (true, ""%string, [
(2,61157712610,0,-977884190);
(3,61158287508,0,-977309292);
(0,61158979638,0,-976617162);
(1,61159676389,0,-975920411);
(2,61160255692,0,-975341108);
(3,61160847140,0,-974749660);
(0,61161553712,0,-974043088);
(1,61162226731,0,-973370069);
(2,61162797614,0,-972799186);
(3,61163415412,0,-972181388);
(0,61164121773,0,-971475027);
(1,61164764091,0,-970832709);
(2,61165340239,0,-970256561);
(3,61165987863,0,-969608937);
(0,61166680511,3600,-968916289);
(1,61167291830,3600,-968304970);
(2,61167885251,3600,-967711549);
(3,61168560041,3600,-967036759);
(0,61169228680,3600,-966368120);
(1,61169815154,3600,-965781646);
(2,61170433790,3600,-965163010);
(3,61171128472,3600,-964468328);
(0,61171767381,3600,-963829419);
(1,61172339671,3600,-963257129);
(2,61172986522,3600,-962610278);
(3,61173690605,3600,-961906195);
(0,61174299737,3600,-961297063);
(1,61174870407,3600,-960726393);
(2,61175543789,3600,-960053011);
(3,61176244719,3600,-959352081);
(0,61176829991,3600,-958766809);
(1,61177411211,3600,-958185589);
(2,61178105350,3600,-957491450);
(3,61178790301,3600,-956806499);
(0,61179362526,3600,-956234274);
(1,61179964418,3600,-955632382);
(2,61180669684,3600,-954927116);
(3,61181328472,3600,-954268328);
(0,61181901011,3600,-953695789);
(1,61182530634,3600,-953066166);
(2,61183233771,3600,-952363029);
(3,61183861945,3600,-951734855);
(0,61184447690,3600,-951149110);
(1,61185108120,3600,-950488680);
(2,61185794140,0,-949802660);
(3,61186394468,0,-949202332);
(0,61187003186,0,-948593614);
(1,61187691906,0,-947904894);
(2,61188348586,0,-947248214)]).
Definition file_1940 : file := (true, ""%string, [
(3,61188929850,0,-946666950);
(0,61189566833,0,-946029967);
(1,61190274103,0,-945322697);
(2,61190896986,0,-944699814);
(3,61191470917,0,-944125883);
(0,61192136764,0,-943460036);
(1,61192846547,0,-942750253);
(2,61193440580,0,-942156220);
(3,61194018960,3600,-941577840);
(0,61194709403,3600,-940887397);
(1,61195404277,3600,-940192523);
(2,61195980803,3600,-939615997);
(3,61196574007,3600,-939022793);
(0,61197279529,3600,-938317271);
(1,61197947053,3600,-937649747);
(2,61198518961,3600,-937077839);
(3,61199135368,3600,-936461432);
(0,61199842027,3600,-935754773);
(1,61200478149,3600,-935118651);
(2,61201056694,3600,-934540106);
(3,61201701663,3600,-933895137);
(0,61202394301,3600,-933202499);
(1,61203002300,3600,-932594500);
(2,61203596427,3600,-932000373);
(3,61204270426,3600,-931326374);
(0,61204937237,3600,-930659563);
(1,61205524513,3600,-930072287);
(2,61206141270,3600,-929455530);
(3,61206838207,3600,-928758593);
(0,61207474130,3600,-928122670);
(1,61208049676,3600,-927547124);
(2,61208694133,3600,-926902667);
(3,61209401600,3600,-926195200);
(0,61210008904,3600,-925587896);
(1,61210582373,3600,-925014427);
(2,61211256088,3600,-924340712);
(3,61211958457,3600,-923638343);
(0,61212544861,3600,-923051939);
(1,61213126721,3600,-922470079);
(2,61213824976,3600,-921771824);
(3,61214508290,3600,-921088510);
(0,61215084183,3600,-920512617);
(1,61215685679,3600,-919911121);
(2,61216395872,3600,-919200928);
(3,61217051802,3600,-918544998);
(0,61217628147,3600,-917968653);
(1,61218259243,3600,-917337557);
(2,61218963537,3600,-916633263);
(3,61219590336,3600,-916006464);
(0,61220177821,3600,-915418979)]).
Definition file_1941 : file := (true, ""%string, [
(1,61220842755,3600,-914754045);
(2,61221524729,3600,-914072071);
(3,61222125750,3600,-913471050);
(0,61222734253,3600,-912862547);
(1,61223427706,3600,-912169094);
(2,61224078469,3600,-911518331);
(3,61224660514,3600,-910936286);
(0,61225297422,3600,-910299378);
(1,61226005369,3600,-909591431);
(2,61226624877,3600,-908971923);
(3,61227197572,3600,-908399228);
(0,61227864921,3600,-907731879);
(1,61228570330,3600,-907026470);
(2,61229164532,3600,-906432268);
(3,61229739841,3600,-905856959);
(0,61230432286,3600,-905164514);
(1,61231121300,7200,-904475500);
(2,61231698904,7200,-903897896);
(3,61232289477,7200,-903307323);
(0,61232995159,7200,-902601641);
(1,61233659763,7200,-901937037);
(2,61234230808,7200,-901365992);
(3,61234847137,7200,-900749663);
(0,61235551347,7200,-900045453);
(1,61236188665,7200,-899408135);
(2,61236764207,7200,-898832593);
(3,61237411645,7200,-898185155);
(0,61238101098,7200,-897495702);
(1,61238712005,7200,-896884795);
(2,61239303460,7200,-896293340);
(3,61239980411,3600,-895616389);
(0,61240645998,3600,-894950802);
(1,61241234691,3600,-894362109);
(2,61241852132,3600,-893744668);
(3,61242550346,3600,-893046454);
(0,61243187865,3600,-892408935);
(1,61243762196,3600,-891834604);
(2,61244411559,3600,-891185241);
(3,61245118438,3600,-890478362);
(0,61245728349,3600,-889868451);
(1,61246299870,3600,-889296930);
(2,61246980054,3600,-888616746);
(3,61247681714,3600,-887915086);
(0,61248269021,3600,-887327779);
(1,61248851556,3600,-886745244);
(2,61249553534,3600,-886043266);
(3,61250237333,3600,-885359467);
(0,61250811556,3600,-884785244);
(1,61251417775,3600,-884179025)]).
Definition file_1942 : file := (true, ""%string, [
(2,61252126986,3600,-883469814);
(3,61252783528,3600,-882813272);
(0,61253357618,3600,-882239182);
(1,61253994896,3600,-881601904);
(2,61254695641,3600,-880901159);
(3,61255320792,3600,-880276008);
(0,61255908309,3600,-879688491);
(1,61256576402,3600,-879020398);
(2,61257255720,3600,-878341080);
(3,61257852102,3600,-877744698);
(0,61258463559,3600,-877133241);
(1,61259155361,3600,-876441439);
(2,61259805269,3600,-875791531);
(3,61260381852,7200,-875214948);
(0,61261022144,7200,-874574656);
(1,61261726303,7200,-873870497);
(2,61262344858,7200,-873251942);
(3,61262914418,7200,-872682382);
(0,61263582405,7200,-872014395);
(1,61264285895,7200,-871310905);
(2,61264877372,7200,-870719428);
(3,61265453193,7200,-870143607);
(0,61266142929,7200,-869453871);
(1,61266833087,7200,-868763713);
(2,61267406961,7200,-868189839);
(3,61268000281,7200,-867596519);
(0,61268702551,7200,-866894249);
(1,61269369152,7200,-866227648);
(2,61269937983,7200,-865658817);
(3,61270556617,7200,-865040183);
(0,61271259977,3600,-864336823);
(1,61271897413,3600,-863699387);
(2,61272474292,3600,-863122508);
(3,61273122111,3600,-862474689);
(0,61273813854,3600,-861782946);
(1,61274422575,3600,-861174225);
(2,61275018767,3600,-860578033);
(3,61275695268,3600,-859901532);
(0,61276363482,3600,-859233318);
(1,61276949901,3600,-858646899);
(2,61277573064,3600,-858023736);
(3,61278272373,3600,-857324427);
(0,61278909475,3600,-856687325);
(1,61279484224,3600,-856112576);
(2,61280137455,3600,-855459345);
(3,61280847486,3600,-854749314);
(0,61281453561,3600,-854143239);
(1,61282028871,3600,-853567929);
(2,61282710240,3600,-852886560);
(3,61283414289,3600,-852182511)]).
Definition file_1943 : file := (true, ""%string, [
(0,61283997527,3600,-851599273);
(1,61284584928,3600,-851011872);
(2,61285286929,3600,-850309871);
(3,61285968839,3600,-849627961);
(0,61286542256,3600,-849054544);
(1,61287151218,3600,-848445582);
(2,61287860770,3600,-847736030);
(3,61288510980,3600,-847085820);
(0,61289087760,3600,-846509040);
(1,61289724677,3600,-845872123);
(2,61290425430,3600,-845171370);
(3,61291043558,3600,-844553242);
(0,61291634122,7200,-843962678);
(1,61292300733,7200,-843296067);
(2,61292977998,7200,-842618802);
(3,61293570740,7200,-842026060);
(0,61294182327,7200,-841414473);
(1,61294874011,7200,-840722789);
(2,61295519691,7200,-840077109);
(3,61296096881,7200,-839499919);
(0,61296734092,7200,-838862708);
(1,61297439753,7200,-838157047);
(2,61298054138,7200,-837542662);
(3,61298626135,7200,-836970665);
(0,61299290674,7200,-836306126);
(1,61299995366,7200,-835601434);
(2,61300585357,7200,-835011443);
(3,61301162375,7200,-834434425);
(0,61301851581,7200,-833745219);
(1,61302540977,7200,-833055823);
(2,61303116847,3600,-832479953);
(3,61303709102,3600,-831887698);
(0,61304414335,3600,-831182465);
(1,61305078748,3600,-830518052);
(2,61305651546,3600,-829945254);
(3,61306268797,3600,-829328003);
(0,61306975700,3600,-828621100);
(1,61307611775,3600,-827985025);
(2,61308192102,3600,-827404698);
(3,61308841345,3600,-826755455);
(0,61309533489,3600,-826063311);
(1,61310143342,3600,-825453458);
(2,61310741136,3600,-824855664);
(3,61311422594,3600,-824174206);
(0,61312087330,3600,-823509470);
(1,61312676647,3600,-822920153);
(2,61313300644,3600,-822296156);
(3,61314005030,3600,-821591770);
(0,61314637796,3600,-820959004)]).
Definition file_1944 : file := (true, ""%string, [
(1,61315214710,3600,-820382090);
(2,61315870167,3600,-819726633);
(3,61316580763,3600,-819016037);
(0,61317185073,3600,-818411727);
(1,61317760126,3600,-817836674);
(2,61318445370,3600,-817151430);
(3,61319144552,3600,-816452248);
(0,61319728783,3600,-815868017);
(1,61320314443,3600,-815282357);
(2,61321019287,3600,-814577513);
(3,61321694724,3600,-813902076);
(0,61322269048,3600,-813327752);
(1,61322877285,3600,-812719515);
(2,61323585789,7200,-812011011);
(3,61324232364,7200,-811364436);
(0,61324807515,7200,-810789285);
(1,61325445983,7200,-810150817);
(2,61326142207,7200,-809454593);
(3,61326760385,7200,-808836415);
(0,61327347265,7200,-808249535);
(1,61328016375,7200,-807580425);
(2,61328689178,7200,-806907622);
(3,61329283070,7200,-806313730);
(0,61329891687,7200,-805705113);
(1,61330584426,7200,-805012374);
(2,61331228931,7200,-804367869);
(3,61331805628,7200,-803791172);
(0,61332443044,7200,-803153756);
(1,61333147489,7200,-802449311);
(2,61333764066,7200,-801832734);
(3,61334333621,7200,-801263179);
(0,61335001552,7200,-800595248);
(1,61335704415,7200,-799892385);
(2,61336297332,7200,-799299468);
(3,61336872240,7200,-798724560);
(0,61337565479,3600,-798031321);
(1,61338254877,3600,-797341923);
(2,61338831741,3600,-796765059);
(3,61339425146,3600,-796171654);
(0,61340132091,3600,-795464709);
(1,61340798903,3600,-794797897);
(2,61341370534,3600,-794226266);
(3,61341992917,3600,-793603883);
(0,61342698542,3600,-792898258);
(1,61343337175,3600,-792259625);
(2,61343916704,3600,-791680096);
(3,61344572200,3600,-791024600);
(0,61345262063,3600,-790334737);
(1,61345871667,3600,-789725133);
(2,61346471889,3600,-789124911)]).
Definition file_1945 : file := (true, ""%string, [
(3,61347156512,3600,-788440288);
(0,61347819998,3600,-787776802);
(1,61348405718,3600,-787191082);
(2,61349035267,3600,-786561533);
(3,61349738251,3600,-785858549);
(0,61350370424,3600,-785226376);
(1,61350943120,3600,-784653680);
(2,61351603607,3600,-783993193);
(3,61352310728,3600,-783286072);
(0,61352913120,3600,-782683680);
(1,61353486726,3600,-782110074);
(2,61354172687,3600,-781424113);
(3,61354869617,7200,-780727183);
(0,61355449864,7200,-780146936);
(1,61356037581,7200,-779559219);
(2,61356738816,7200,-778857984);
(3,61357413795,7200,-778183005);
(0,61357983796,7200,-777613004);
(1,61358595107,7200,-777001693);
(2,61359299414,7200,-776297386);
(3,61359945368,7200,-775651432);
(0,61360518448,7200,-775078352);
(1,61361157939,7200,-774438861);
(2,61361852981,7200,-773743819);
(3,61362468828,7200,-773127972);
(0,61363057010,7200,-772539790);
(1,61363724505,3600,-771872295);
(2,61364399243,3600,-771197557);
(3,61364989860,3600,-770606940);
(0,61365601970,3600,-769994830);
(1,61366292882,3600,-769303918);
(2,61366939472,3600,-768657328);
(3,61367514340,3600,-768082460);
(0,61368155028,3600,-767441772);
(1,61368860346,3600,-766736454);
(2,61369476411,3600,-766120389);
(3,61370047491,3600,-765549309);
(0,61370716922,3600,-764879878);
(1,61371423474,0,-764173326);
(2,61372013550,0,-763583250);
(3,61372593030,0,-763003770);
(0,61373286622,0,-762310178);
(1,61373979210,0,-761617590);
(2,61374553993,0,-761042807);
(3,61375152496,0,-760444304);
(0,61375860378,0,-759736422);
(1,61376526237,0,-759070563);
(2,61377099441,0,-758497359);
(3,61377724849,0,-757871951)]).
Definition file_1946 : file := (true, ""%string, [
(0,61378432171,0,-757164629);
(1,61379065591,0,-756531209);
(2,61379649981,0,-755946819);
(3,61380306114,0,-755290686);
(0,61380996234,0,-754600566);
(1,61381600065,0,-753996735);
(2,61382204866,0,-753391934);
(3,61382889532,0,-752707268);
(0,61383549769,0,-752047031);
(1,61384133024,0,-751463776);
(2,61384763471,0,-750833329);
(3,61385467176,0,-750129624);
(0,61386093529,0,-749503271);
(1,61386667510,0,-748929290);
(2,61387325252,3600,-748271548);
(3,61388032828,3600,-747563972);
(0,61388630258,3600,-746966542);
(1,61389206041,3600,-746390759);
(2,61389888798,3600,-745708002);
(3,61390584176,3600,-745012624);
(0,61391163048,3600,-744433752);
(1,61391750825,3600,-743845975);
(2,61392451368,3600,-743145432);
(3,61393122763,3600,-742474037);
(0,61393694810,3600,-741901990);
(1,61394303759,3600,-741293041);
(2,61395009851,3600,-740586949);
(3,61395652356,3600,-739944444);
(0,61396228471,3600,-739368329);
(1,61396865772,3600,-738731028);
(2,61397562458,3600,-738034342);
(3,61398177480,3600,-737419320);
(0,61398767258,3600,-736829542);
(1,61399435733,3600,-736161067);
(2,61400109670,3600,-735487130);
(3,61400702753,3600,-734894047);
(0,61401314686,3600,-734282114);
(1,61402009966,3600,-733586834);
(2,61402653719,0,-732943081);
(3,61403232593,0,-732364207);
(0,61403873493,0,-731723307);
(1,61404583193,0,-731013607);
(2,61405197084,0,-730399716);
(3,61405770987,0,-729825813);
(0,61406443458,0,-729153342);
(1,61407150449,0,-728446351);
(2,61407741149,0,-727855651);
(3,61408321102,0,-727275698);
(0,61409019989,0,-726576811)]).
Definition file_1947 : file := (true, ""%string, [
(2,61410285994,0,-725310806);
(3,61410884234,0,-724712566);
(0,61411595688,0,-724001112);
(1,61412256394,0,-723340406);
(2,61412831413,0,-722765387);
(3,61413458333,0,-722138467);
(0,61414164067,0,-721432733);
(1,61414794697,0,-720802103);
(2,61415378097,0,-720218703);
(3,61416037702,0,-719559098);
(0,61416722119,3600,-718874681);
(1,61417325726,3600,-718271074);
(2,61417927695,3600,-717669105);
(3,61418615034,7200,-716981766);
(0,61419270015,7200,-716326785);
(1,61419853112,7200,-715743688);
(2,61420481595,7200,-715115205);
(3,61421184520,7200,-714412280);
(0,61421809461,7200,-713787339);
(1,61422381358,7200,-713215442);
(2,61423039622,7200,-712557178);
(3,61423743534,7200,-711853266);
(0,61424342786,7200,-711254014);
(1,61424915126,7200,-710681674);
(2,61425599959,7200,-709996841);
(3,61426292139,7200,-709304661);
(0,61426872938,7200,-708723862);
(1,61427458415,7200,-708138385);
(2,61428160272,7200,-707436528);
(3,61428831791,7200,-706765009);
(0,61429403576,3600,-706193224);
(1,61430013588,3600,-705583212);
(2,61430718941,3600,-704877859);
(3,61431364697,3600,-704232103);
(0,61431938902,3600,-703657898);
(1,61432580484,3600,-703016316);
(2,61433275356,3600,-702321444);
(3,61433893844,3600,-701702956);
(0,61434483014,3600,-701113786);
(1,61435156226,3600,-700440574);
(2,61435829310,3600,-699767490);
(3,61436423116,0,-699173684);
(0,61437038496,0,-698558304);
(1,61437735882,0,-697860918);
(2,61438380384,0,-697216416);
(3,61438957015,0,-696639785);
(0,61439604861,0,-695991939);
(1,61440313489,0,-695283311);
(2,61440928044,0,-694668756)]).
Definition file_1948 : file := (true, ""%string, [
(3,61441499647,0,-694097153);
(0,61442178326,0,-693418474);
(1,61442883161,0,-692713639);
(2,61443472294,0,-692124506);
(3,61444053135,0,-691543665);
(0,61444753338,0,-690843462);
(1,61445440491,0,-690156309);
(2,61446014140,0,-689582660);
(3,61446616526,0,-688980274);
(0,61447324526,0,-688272274);
(1,61447984007,3600,-687612793);
(2,61448555401,3600,-687041399);
(3,61449186303,3600,-686410497);
(0,61449887842,3600,-685708958);
(1,61450515684,3600,-685081116);
(2,61451098082,3600,-684498718);
(3,61451758129,3600,-683838671);
(0,61452441063,3600,-683155737);
(1,61453040080,3600,-682556720);
(2,61453643810,3600,-681952990);
(3,61454328277,3600,-681268523);
(0,61454984164,3600,-680612636);
(1,61455562824,3600,-680033976);
(2,61456193663,3600,-679403137);
(3,61456893900,3600,-678702900);
(0,61457519349,3600,-678077451);
(1,61458089413,3600,-677507387);
(2,61458748310,3600,-676848490);
(3,61459452811,3600,-676143989);
(0,61460050402,3600,-675546398);
(1,61460624446,3600,-674972354);
(2,61461307979,3600,-674288821);
(3,61462003659,3600,-673593141);
(0,61462581713,3600,-673015087);
(1,61463171131,3600,-672425669);
(2,61463871867,3600,-671724933);
(3,61464546465,3600,-671050335);
(0,61465117341,3600,-670479459);
(1,61465731020,3600,-669865780);
(2,61466437506,3600,-669159294);
(3,61467082929,3600,-668513871);
(0,61467660189,0,-667936611);
(1,61468303615,0,-667293185);
(2,61469001164,0,-666595636);
(3,61469616175,0,-665980625);
(0,61470211513,0,-665385287);
(1,61470885507,0,-664711293);
(2,61471559512,0,-664037288);
(3,61472149976,0,-663446824);
(0,61472771120,0,-662825680)]).
Definition file_1949 : file := (true, ""%string, [
(1,61473469924,0,-662126876);
(2,61474111202,0,-661485598);
(3,61474687688,0,-660909112);
(0,61475337762,0,-660259038);
(1,61476048295,0,-659548505);
(2,61476656912,0,-658939888);
(3,61477231402,0,-658365398);
(0,61477908904,0,-657687896);
(1,61478613701,0,-656983099);
(2,61479198174,0,-656398626);
(3,61479781843,0,-655814957);
(0,61480480261,0,-655116539);
(1,61481163625,3600,-654433175);
(2,61481736484,3600,-653860316);
(3,61482338875,3600,-653257925);
(0,61483046584,3600,-652550216);
(1,61483699912,3600,-651896888);
(2,61484273410,3600,-651323390);
(3,61484901812,3600,-650694988);
(0,61485603895,3600,-649992905);
(1,61486226813,3600,-649369987);
(2,61486811096,3600,-648785704);
(3,61487469068,3600,-648127732);
(0,61488151360,3600,-647445440);
(1,61488749289,3600,-646847511);
(2,61489352471,3600,-646244329);
(3,61490037797,3600,-645559003);
(0,61490691206,3600,-644905594);
(1,61491272328,3600,-644324472);
(2,61491900806,3600,-643695994);
(3,61492604404,3600,-642992396);
(0,61493227165,3600,-642369635);
(1,61493800698,3600,-641796102);
(2,61494458413,3600,-641138387);
(3,61495165809,3600,-640430991);
(0,61495762881,3600,-639833919);
(1,61496338797,3600,-639258003);
(2,61497024857,3600,-638571943);
(3,61497720418,3600,-637876382);
(0,61498300994,3600,-637295806);
(1,61498890307,3600,-636706493);
(2,61499596259,0,-636000541);
(3,61500268120,0,-635328680);
(0,61500843002,0,-634753798);
(1,61501456920,0,-634139880);
(2,61502166925,0,-633429875);
(3,61502809744,0,-632787056);
(0,61503389828,0,-632206972);
(1,61504036321,0,-631560479)]).
Definition file_1950 : file := (true, ""%string, [
(2,61504732179,0,-630864621);
(3,61505346733,0,-630250067);
(0,61505942482,0,-629654318);
(1,61506621559,0,-628975241);
(2,61507289866,0,-628306934);
(3,61507881208,0,-627715592);
(0,61508501689,0,-627095111);
(1,61509203530,0,-626393270);
(2,61509839708,0,-625757092);
(3,61510415981,0,-625180819);
(0,61511066503,0,-624530297);
(1,61511774985,0,-623821815);
(2,61512382170,0,-623214630);
(3,61512954208,0,-622642592);
(0,61513633591,3600,-621963209);
(1,61514332776,3600,-621264024);
(2,61514918357,3600,-620678443);
(3,61515498741,3600,-620098059);
(0,61516198511,3600,-619398289);
(1,61516877265,3600,-618719535);
(2,61517450534,3600,-618146266);
(3,61518051333,3600,-617545467);
(0,61518757977,3600,-616838823);
(1,61519410746,3600,-616186054);
(2,61519982241,3600,-615614559);
(3,61520611994,3600,-614984806);
(0,61521311092,3600,-614285708);
(1,61521936646,3600,-613660154);
(2,61522517800,3600,-613079000);
(3,61523178930,3600,-612417870);
(0,61523858835,3600,-611737965);
(1,61524459369,3600,-611137431);
(2,61525061392,3600,-610535408);
(3,61525749219,3600,-609847581);
(0,61526402862,3600,-609193938);
(1,61526984099,3600,-608612701);
(2,61527615665,3600,-607981135);
(3,61528319636,3600,-607277164);
(0,61528944751,3600,-606652049);
(1,61529516317,3600,-606080483);
(2,61530180431,0,-605416369);
(3,61530886927,0,-604709873);
(0,61531485905,0,-604110895);
(1,61532060784,0,-603536016);
(2,61532752533,0,-602844267);
(3,61533447803,0,-602148997);
(0,61534027767,0,-601569033);
(1,61534619807,0,-600976993);
(2,61535327079,0,-600269721)]).
Definition file_1951 : file := (true, ""%string, [
(3,61535999544,0,-599597256);
(0,61536571921,0,-599024879);
(1,61537191754,0,-598405046);
(2,61537898928,0,-597697872);
(3,61538541284,0,-597055516);
(0,61539119788,0,-596477012);
(1,61539771317,0,-595825483);
(2,61540463652,0,-595133148);
(3,61541074834,0,-594521966);
(0,61541671996,0,-593924804);
(1,61542351638,0,-593245162);
(2,61543018310,0,-592578490);
(3,61543604147,0,-591992653);
(0,61544228035,0,-591368765);
(1,61544926598,0,-590670202);
(2,61545562281,3600,-590034519);
(3,61546133898,3600,-589462902);
(0,61546786627,3600,-588810173);
(1,61547491944,3600,-588104856);
(2,61548097512,3600,-587499288);
(3,61548668222,3600,-586928578);
(0,61549346459,3600,-586250341);
(1,61550045525,3600,-585551275);
(2,61550627760,3600,-584969040);
(3,61551210079,3600,-584386721);
(0,61551906463,3600,-583690337);
(1,61552587387,3600,-583009413);
(2,61553157435,3600,-582439365);
(3,61553761158,3600,-581835642);
(0,61554465500,3600,-581131300);
(1,61555119750,3600,-580477050);
(2,61555690733,3600,-579906067);
(3,61556322032,3600,-579274768);
(0,61557022100,3600,-578574700);
(1,61557646571,3600,-577950229);
(2,61558231051,3600,-577365749);
(3,61558892053,3600,-576704747);
(0,61559574912,3600,-576021888);
(1,61560172812,3600,-575423988);
(2,61560780608,3600,-574816192);
(3,61561468619,0,-574128181);
(0,61562123593,0,-573473207);
(1,61562703540,0,-572893260);
(2,61563340306,0,-572256494);
(3,61564046555,0,-571550245);
(0,61564669178,0,-570927622);
(1,61565242858,0,-570353942);
(2,61565909443,0,-569687357);
(3,61566619095,0,-568977705);
(0,61567213424,0,-568383376)]).
Definition file_1952 : file := (true, ""%string, [
(1,61567792936,0,-567803864);
(2,61568484926,0,-567111874);
(3,61569180581,0,-566416219);
(0,61569757656,0,-565839144);
(1,61570353680,0,-565243120);
(2,61571060919,0,-564535881);
(3,61571728874,0,-563867926);
(0,61572302263,0,-563294537);
(1,61572923029,0,-562673771);
(2,61573630517,0,-561966283);
(3,61574265569,0,-561331231);
(0,61574847272,0,-560749528);
(1,61575497364,0,-560099436);
(2,61576188915,0,-559407885);
(3,61576794455,0,-558802345);
(0,61577393350,3600,-558203450);
(1,61578071897,3600,-557524903);
(2,61578735451,3600,-556861349);
(3,61579319974,3600,-556276826);
(0,61579942152,3600,-555654648);
(1,61580641595,3600,-554955205);
(2,61581272892,3600,-554323908);
(3,61581846514,3600,-553750286);
(0,61582495557,3600,-553101243);
(1,61583202696,3600,-552394104);
(2,61583805288,3600,-551791512);
(3,61584378214,3600,-551218586);
(0,61585054266,3600,-550542534);
(1,61585753873,3600,-549842927);
(2,61586336458,3600,-549260342);
(3,61586918904,3600,-548677896);
(0,61587616831,3600,-547979969);
(1,61588296214,3600,-547300586);
(2,61588869575,3600,-546727225);
(3,61589471818,3600,-546124982);
(0,61590180094,3600,-545416706);
(1,61590832263,3600,-544764537);
(2,61591407308,3600,-544189492);
(3,61592038426,3600,-543558374);
(0,61592740906,3600,-542855894);
(1,61593365065,0,-542231735);
(2,61593952156,0,-541644644);
(3,61594616621,0,-540980179);
(0,61595297704,0,-540299096);
(1,61595897695,0,-539699105);
(2,61596506453,0,-539090347);
(3,61597200125,0,-538396675);
(0,61597850520,0,-537746280);
(1,61598433146,0,-537163654)]).
Definition file_1953 : file := (true, ""%string, [
(3,61599780576,0,-535816224);
(0,61600399704,0,-535197096);
(1,61600974220,0,-534622580);
(2,61601643856,0,-533952944);
(3,61602351016,0,-533245784);
(0,61602945060,0,-532651740);
(1,61603523124,0,-532073676);
(2,61604218740,0,-531378060);
(3,61604908029,0,-530688771);
(0,61605486383,0,-530110417);
(1,61606080691,0,-529516109);
(2,61606788970,0,-528807830);
(3,61607451539,0,-528145261);
(0,61608024645,0,-527572155);
(1,61608645660,3600,-526951140);
(2,61609350143,3600,-526246657);
(3,61609983702,3600,-525613098);
(0,61610562461,3600,-525034339);
(1,61611214788,3600,-524382012);
(2,61611901488,3600,-523695312);
(3,61612508207,3600,-523088593);
(0,61613103385,3600,-522493415);
(1,61613784035,3600,-521812765);
(2,61614444661,3600,-521152139);
(3,61615029896,3600,-520566904);
(0,61615650560,3600,-519946240);
(1,61616350055,3600,-519246745);
(2,61616982128,3600,-518614672);
(3,61617554266,3600,-518042534);
(0,61618205440,3600,-517391360);
(1,61618910923,3600,-516685877);
(2,61619516502,3600,-516080298);
(3,61620086850,3600,-515509950);
(0,61620767270,3600,-514829530);
(1,61621465794,3600,-514131006);
(2,61622050565,3600,-513546235);
(3,61622632311,3600,-512964489);
(0,61623333619,0,-512263181);
(1,61624014260,0,-511582540);
(2,61624587347,0,-511009453);
(3,61625192956,0,-510403844);
(0,61625901432,0,-509695368);
(1,61626556319,0,-509040481);
(2,61627129915,0,-508466885);
(3,61627767337,0,-507829463);
(0,61628467640,0,-507129160);
(1,61629093015,0,-506503785);
(2,61629680594,0,-505916206);
(3,61630350210,0,-505246590)]).
Definition file_1954 : file := (true, ""%string, [
(0,61631029254,0,-504567546);
(1,61631626937,0,-503969863);
(2,61632239794,0,-503357006);
(3,61632934172,0,-502662628);
(0,61633583735,0,-502013065);
(1,61634161798,0,-501435002);
(2,61634805431,0,-500791369);
(3,61635511869,0,-500084931);
(0,61636129932,0,-499466868);
(1,61636701150,0,-498895650);
(2,61637373760,0,-498223040);
(3,61638077752,0,-497519048);
(0,61638668786,0,-496928014);
(1,61639247153,0,-496349647);
(2,61639940949,3600,-495655851);
(3,61640629137,3600,-494967663);
(0,61641203038,3600,-494393762);
(1,61641800227,3600,-493796573);
(2,61642504075,3600,-493092725);
(3,61643166613,3600,-492430187);
(0,61643736270,3600,-491860530);
(1,61644359593,3600,-491237207);
(2,61645061213,3600,-490535587);
(3,61645693600,3600,-489903200);
(0,61646272017,3600,-489324783);
(1,61646923996,3600,-488672804);
(2,61647611420,3600,-487985380);
(3,61648215280,3600,-487381520);
(0,61648813228,3600,-486783572);
(1,61649491879,3600,-486104921);
(2,61650155057,3600,-485441743);
(3,61650737506,3600,-484859294);
(0,61651362058,3600,-484234742);
(1,61652060943,3600,-483535857);
(2,61652694033,3600,-482902767);
(3,61653265921,3600,-482330879);
(0,61653919803,3600,-481676997);
(1,61654627852,0,-480968948);
(2,61655231447,0,-480365353);
(3,61655805074,0,-479791726);
(0,61656486410,0,-479110390);
(1,61657188871,0,-478407929);
(2,61657770601,0,-477826199);
(3,61658357603,0,-477239197);
(0,61659059433,0,-476537367);
(1,61659741339,0,-475855461);
(2,61660313830,0,-475282970);
(3,61660923721,0,-474673079);
(0,61661633592,0,-473963208)]).
Definition file_1955 : file := (true, ""%string, [
(1,61662284899,0,-473311901);
(2,61662861848,0,-472734952);
(3,61663500894,0,-472095906);
(0,61664202419,0,-471394381);
(1,61664821515,0,-470775285);
(2,61665414142,0,-470182658);
(3,61666083704,0,-469513096);
(0,61666761312,0,-468835488);
(1,61667354427,0,-468242373);
(2,61667970041,0,-467626759);
(3,61668664657,0,-466932143);
(0,61669309400,0,-466287400);
(1,61669886999,0,-465709801);
(2,61670529256,0,-465067544);
(3,61671236512,0,-464360288);
(0,61671848812,3600,-463747988);
(1,61672422162,3600,-463174638);
(2,61673091218,3600,-462505582);
(3,61673794983,3600,-461801817);
(0,61674382748,3600,-461214052);
(1,61674962464,3600,-460634336);
(2,61675654098,3600,-459942702);
(3,61676339828,3600,-459256972);
(0,61676914324,3600,-458682476);
(1,61677510214,3600,-458086586);
(2,61678214935,3600,-457381865);
(3,61678873843,3600,-456722957);
(0,61679446482,3600,-456150318);
(1,61680067159,3600,-455529641);
(2,61680771061,3600,-454825739);
(3,61681401199,3600,-454195601);
(0,61681982282,3600,-453614518);
(1,61682633483,3600,-452963317);
(2,61683321626,3600,-452275174);
(3,61683926410,3600,-451670390);
(0,61684525118,3600,-451071682);
(1,61685206791,3600,-450390009);
(2,61685867922,3600,-449728878);
(3,61686453923,0,-449142877);
(0,61687078300,0,-448518500);
(1,61687782233,0,-447814567);
(2,61688412313,0,-447184487);
(3,61688987874,0,-446608926);
(0,61689643312,0,-445953488);
(1,61690354130,0,-445242670);
(2,61690956656,0,-444640144);
(3,61691531832,0,-444064968);
(0,61692217674,0,-443379126);
(1,61692917982,0,-442678818);
(2,61693501463,0,-442095337)]).
Definition file_1956 : file := (true, ""%string, [
(3,61694088135,0,-441508665);
(0,61694794900,0,-440801900);
(1,61695471486,0,-440125314);
(2,61696046416,0,-439550384);
(3,61696656554,0,-438940246);
(0,61697367523,0,-438229277);
(1,61698014446,0,-437582354);
(2,61698591687,0,-437005113);
(3,61699233243,0,-436363557);
(0,61699930672,0,-435666128);
(1,61700548419,0,-435048381);
(2,61701138652,0,-434458148);
(3,61701811591,0,-433785209);
(0,61702483189,0,-433113611);
(1,61703076496,0,-432520304);
(2,61703689220,3600,-431907580);
(3,61704384971,3600,-431211829);
(0,61705026308,3600,-430570492);
(1,61705602948,3600,-429993852);
(2,61706244357,3600,-429352443);
(3,61706949261,3600,-428647539);
(0,61707562181,3600,-428034619);
(1,61708132587,3600,-427464213);
(2,61708803248,3600,-426793552);
(3,61709503327,3600,-426093473);
(0,61710093482,3600,-425503318);
(1,61710670006,3600,-424926794);
(2,61711363805,3600,-424232995);
(3,61712047956,3600,-423548844);
(0,61712623522,3600,-422973278);
(1,61713218677,3600,-422378123);
(2,61713923943,3600,-421672857);
(3,61714584843,3600,-421011957);
(0,61715156239,3600,-420440561);
(1,61715779910,3600,-419816890);
(2,61716482437,3600,-419114363);
(3,61717116369,3600,-418480431);
(0,61717695843,3600,-417900957);
(1,61718352171,0,-417244629);
(2,61719038740,0,-416558060);
(3,61719645787,0,-415951013);
(0,61720245793,0,-415351007);
(1,61720931303,0,-414665497);
(2,61721592316,0,-414004484);
(3,61722177219,0,-413419581);
(0,61722807164,0,-412789636);
(1,61723511483,0,-412085317);
(2,61724142392,0,-411454408);
(3,61724715045,0,-410881755)]).
Definition file_1957 : file := (true, ""%string, [
(0,61725377641,0,-410219159);
(1,61726086403,0,-409510397);
(2,61726688484,0,-408908316);
(3,61727262526,0,-408334274);
(0,61727952302,0,-407644498);
(1,61728650598,0,-406946202);
(2,61729231069,0,-406365731);
(3,61729820338,0,-405776462);
(0,61730525570,0,-405071230);
(1,61731200993,0,-404395807);
(2,61731771712,0,-403825088);
(3,61732386267,0,-403210533);
(0,61733092786,0,-402504014);
(1,61733737942,0,-401858858);
(2,61734312557,3600,-401284243);
(3,61734956457,3600,-400640343);
(0,61735650890,3600,-399945910);
(1,61736264965,3600,-399331835);
(2,61736855650,3600,-398741150);
(3,61737527083,3600,-398069717);
(0,61738198797,3600,-397398003);
(1,61738787398,3600,-396809402);
(2,61739402529,3600,-396194271);
(3,61740095083,3600,-395501717);
(0,61740737649,3600,-394859151);
(1,61741310987,3600,-394285813);
(2,61741954225,3600,-393642575);
(3,61742657997,3600,-392938803);
(0,61743270524,3600,-392326276);
(1,61743840942,3600,-391755858);
(2,61744511355,3600,-391085445);
(3,61745213883,3600,-390382917);
(0,61745801592,3600,-389795208);
(1,61746381304,3600,-389215496);
(2,61747073776,3600,-388523024);
(3,61747761778,3600,-387835022);
(0,61748335130,3600,-387261670);
(1,61748934540,3600,-386662260);
(2,61749639810,0,-385956990);
(3,61750302267,0,-385294533);
(0,61750874608,0,-384722192);
(1,61751501241,0,-384095559);
(2,61752205979,0,-383390821);
(3,61752837586,0,-382759214);
(0,61753421972,0,-382174828);
(1,61754079477,0,-381517323);
(2,61754768201,0,-380828599);
(3,61755371134,0,-380225666);
(0,61755977544,0,-379619256);
(1,61756663972,0,-378932828)]).
Definition file_1958 : file := (true, ""%string, [
(2,61757323777,0,-378273023);
(3,61757906509,0,-377690291);
(0,61758540518,0,-377056282);
(1,61759246588,0,-376350212);
(2,61759872378,0,-375724422);
(3,61760446482,0,-375150318);
(0,61761109148,0,-374487652);
(1,61761819108,0,-373777692);
(2,61762415320,0,-373181480);
(3,61762992512,0,-372604288);
(0,61763680235,0,-371916565);
(1,61764376701,0,-371220099);
(2,61764954299,0,-370642501);
(3,61765545028,0,-370051772);
(0,61766249049,0,-369347751);
(1,61766919286,3600,-368677514);
(2,61767490957,3600,-368105843);
(3,61768103909,3600,-367492891);
(0,61768810857,3600,-366785943);
(1,61769450219,3600,-366146581);
(2,61770027244,3600,-365569556);
(3,61770668392,3600,-364928408);
(0,61771363180,3600,-364233620);
(1,61771974248,3600,-363622552);
(2,61772565816,3600,-363030984);
(3,61773236510,3600,-362360290);
(0,61773906782,3600,-361690018);
(1,61774496387,3600,-361100413);
(2,61775109962,3600,-360486838);
(3,61775805005,3600,-359791795);
(0,61776444771,3600,-359152029);
(1,61777021541,3600,-358575259);
(2,61777662775,3600,-357934025);
(3,61778370268,3600,-357226532);
(0,61778980907,3600,-356615893);
(1,61779554319,3600,-356042481);
(2,61780225451,3600,-355371349);
(3,61780929633,0,-354667167);
(0,61781518297,0,-354078503);
(1,61782098835,0,-353497965);
(2,61782795724,0,-352801076);
(3,61783481987,0,-352114813);
(0,61784058826,0,-351537974);
(1,61784657968,0,-350938832);
(2,61785368273,0,-350228527);
(3,61786027480,0,-349569320);
(0,61786603431,0,-348993369);
(1,61787231553,0,-348365247);
(2,61787937327,0,-347659473)]).
Definition file_1959 : file := (true, ""%string, [
(3,61788567072,0,-347029728);
(0,61789152910,0,-346443890);
(1,61789814785,0,-345782015);
(2,61790499246,0,-345097554);
(3,61791102451,0,-344494349);
(0,61791708235,0,-343888565);
(1,61792399179,0,-343197621);
(2,61793052925,0,-342543875);
(3,61793636128,0,-341960672);
(0,61794269584,0,-341327216);
(1,61794976221,0,-340620579);
(2,61795598625,0,-339998175);
(3,61796171272,0,-339425528);
(0,61796835041,0,-338761759);
(1,61797540772,0,-338056028);
(2,61798137230,3600,-337459570);
(3,61798711165,3600,-336885635);
(0,61799400758,3600,-336196042);
(1,61800091714,3600,-335505086);
(2,61800670525,3600,-334926275);
(3,61801258449,3600,-334338351);
(0,61801962837,3600,-333633963);
(1,61802630543,3600,-332966257);
(2,61803201545,3600,-332395255);
(3,61803814328,3600,-331782472);
(0,61804519214,3600,-331077586);
(1,61805160104,3600,-330436696);
(2,61805734355,3600,-329862445);
(3,61806378099,3600,-329218701);
(0,61807069994,3600,-328526806);
(1,61807684238,3600,-327912562);
(2,61808273385,3600,-327323415);
(3,61808947393,3600,-326649407);
(0,61809616491,3600,-325980309);
(1,61810207694,3600,-325389106);
(2,61810822269,3600,-324774531);
(3,61811518990,3600,-324077810);
(0,61812160205,3600,-323436595);
(1,61812735822,0,-322860978);
(2,61813382341,0,-322214459);
(3,61814089422,0,-321507378);
(0,61814702425,0,-320894375);
(1,61815273860,0,-320322940);
(2,61815951766,0,-319645034);
(3,61816655079,0,-318941721);
(0,61817244359,0,-318352441);
(1,61817825503,0,-317771297);
(2,61818526183,0,-317070617);
(3,61819212532,0,-316384268);
(0,61819787385,0,-315809415)]).
Definition file_1960 : file := (true, ""%string, [
(1,61820391121,0,-315205679);
(2,61821100276,0,-314496524);
(3,61821759652,0,-313837148);
(0,61822332998,0,-313263802);
(1,61822967073,0,-312629727);
(2,61823669085,0,-311927715);
(3,61824296858,0,-311299942);
(0,61824882319,0,-310714481);
(1,61825547092,0,-310049708);
(2,61826228827,0,-309367973);
(3,61826827244,0,-308769556);
(0,61827435550,0,-308161250);
(1,61828124700,0,-307472100);
(2,61828777725,3600,-306819075);
(3,61829355424,3600,-306241376);
(0,61829991957,3600,-305604843);
(1,61830694873,3600,-304901927);
(2,61831316600,3600,-304280200);
(3,61831886068,3600,-303710732);
(0,61832550442,3600,-303046358);
(1,61833254512,3600,-302342288);
(2,61833848545,3600,-301748255);
(3,61834422950,3600,-301173850);
(0,61835110048,3600,-300486752);
(1,61835802526,3600,-299794274);
(2,61836377832,3600,-299218968);
(3,61836968579,3600,-298628221);
(0,61837669843,3600,-297926957);
(1,61838339944,3600,-297256856);
(2,61838908872,3600,-296687928);
(3,61839524235,3600,-296072565);
(0,61840228490,3600,-295368310);
(1,61840869770,3600,-294727030);
(2,61841445517,3600,-294151283);
(3,61842090028,3600,-293506772);
(0,61842784309,3600,-292812491);
(1,61843396409,3600,-292200391);
(2,61843990553,0,-291606247);
(3,61844664430,0,-290932370);
(0,61845336092,0,-290260708);
(1,61845924869,0,-289671931);
(2,61846545454,0,-289051346);
(3,61847243384,0,-288353416);
(0,61847883943,0,-287712857);
(1,61848459756,0,-287137044);
(2,61849110283,0,-286486517);
(3,61849820383,0,-285776417);
(0,61850429208,0,-285167592);
(1,61851004203,0,-284592597)]).
Definition file_1961 : file := (true, ""%string, [
(2,61851683180,0,-283913620);
(3,61852388578,0,-283208222);
(0,61852973450,0,-282623350);
(1,61853559195,0,-282037605);
(2,61854259610,0,-281337190);
(3,61854943768,0,-280653032);
(0,61855517502,0,-280079298);
(1,61856123658,0,-279473142);
(2,61856832912,0,-278763888);
(3,61857485822,0,-278110978);
(0,61858061538,0,-277535262);
(1,61858694915,0,-276901885);
(2,61859396937,3600,-276199863);
(3,61860017744,3600,-275579056);
(0,61860605965,3600,-274990835);
(1,61861269005,3600,-274327795);
(2,61861948964,3600,-273647836);
(3,61862543878,3600,-273052922);
(0,61863152167,3600,-272444633);
(1,61863841153,3600,-271755647);
(2,61864490339,3600,-271106461);
(3,61865068779,3600,-270528021);
(0,61865702264,3600,-269894536);
(1,61866406916,3600,-269189884);
(2,61867024763,3600,-268572037);
(3,61867596829,3600,-267999971);
(0,61868257922,3600,-267338878);
(1,61868963632,3600,-266633168);
(2,61869556297,3600,-266040503);
(3,61870132128,3600,-265464672);
(0,61870818968,3600,-264777832);
(1,61871511084,3600,-264085716);
(2,61872088433,3600,-263508367);
(3,61872678386,3600,-262918414);
(0,61873382958,3600,-262213842);
(1,61874051011,3600,-261545789);
(2,61874623994,3600,-260972806);
(3,61875238238,3600,-260358562);
(0,61875946314,3600,-259650486);
(1,61876586079,3600,-259010721);
(2,61877165404,3600,-258431396);
(3,61877811559,0,-257785241);
(0,61878506269,0,-257090531);
(1,61879119177,0,-256477623);
(2,61879714995,0,-255881805);
(3,61880393941,0,-255202859);
(0,61881061884,0,-254534916);
(1,61881653187,0,-253943613);
(2,61882274511,0,-253322289);
(3,61882977450,0,-252619350)]).
Definition file_1962 : file := (true, ""%string, [
(0,61883613332,0,-251983468);
(1,61884190943,0,-251405857);
(2,61884843402,0,-250753398);
(3,61885553863,0,-250042937);
(0,61886160642,0,-249436158);
(1,61886735028,0,-248861772);
(2,61887417490,0,-248179310);
(3,61888117859,0,-247478941);
(0,61888703524,0,-246893276);
(1,61889287174,0,-246309626);
(2,61889990171,0,-245606629);
(3,61890667884,3600,-244928916);
(0,61891242380,3600,-244354420);
(1,61891847448,3600,-243749352);
(2,61892555696,3600,-243041104);
(3,61893205186,3600,-242391614);
(0,61893779188,3600,-241817612);
(1,61894413844,3600,-241182956);
(2,61895111625,3600,-240485175);
(3,61895732794,3600,-239864006);
(0,61896317315,3600,-239279485);
(1,61896982842,3600,-238613958);
(2,61897658649,3600,-237938151);
(3,61898255046,3600,-237341754);
(0,61898860427,3600,-236736373);
(1,61899550764,3600,-236046036);
(2,61900198955,3600,-235397845);
(3,61900777201,3600,-234819599);
(0,61901411095,3600,-234185705);
(1,61902114948,3600,-233481852);
(2,61902735052,3600,-232861748);
(3,61903304893,3600,-232291907);
(0,61903969784,3600,-231627016);
(1,61904673934,3600,-230922866);
(2,61905269542,3600,-230327258);
(3,61905843411,3600,-229753389);
(0,61906534787,3600,-229062013);
(1,61907226900,3600,-228369900);
(2,61907805218,3600,-227791582);
(3,61908396471,3600,-227200329);
(0,61909103101,0,-226493699);
(1,61909773302,0,-225823498);
(2,61910345041,0,-225251759);
(3,61910964576,0,-224632224);
(0,61911671389,0,-223925411);
(1,61912313306,0,-223283494);
(2,61912891683,0,-222705117);
(3,61913544164,0,-222052636);
(0,61914236353,0,-221360447)]).
Definition file_1963 : file := (true, ""%string, [
(1,61914848552,0,-220748248);
(2,61915446528,0,-220150272);
(3,61916128540,0,-219468260);
(0,61916794959,0,-218801841);
(1,61917382259,0,-218214541);
(2,61918008721,0,-217588079);
(3,61918710058,0,-216886742);
(0,61919345198,0,-216251602);
(1,61919918276,0,-215678524);
(2,61920575315,0,-215021485);
(3,61921282182,0,-214314618);
(0,61921887036,0,-213709764);
(1,61922459695,3600,-213137105);
(2,61923142595,3600,-212454205);
(3,61923840820,3600,-211755980);
(0,61924422571,3600,-211174229);
(1,61925008013,3600,-210588787);
(2,61925707387,3600,-209889413);
(3,61926384995,3600,-209211805);
(0,61926955237,3600,-208641563);
(1,61927563240,3600,-208033560);
(2,61928267453,3600,-207329347);
(3,61928916809,3600,-206679991);
(0,61929488794,3600,-206108006);
(1,61930124562,3600,-205472238);
(2,61930821377,3600,-204775423);
(3,61931440656,3600,-204156144);
(0,61932026610,3600,-203570190);
(1,61932690783,3600,-202906017);
(2,61933368733,3600,-202228067);
(3,61933962118,3600,-201634682);
(0,61934571310,3600,-201025490);
(1,61935260097,3600,-200336703);
(2,61935910507,3600,-199686293);
(3,61936487015,3600,-199109785);
(0,61937124668,3600,-198472132);
(1,61937829567,3600,-197767233);
(2,61938449133,3600,-197147667);
(3,61939020531,3600,-196576269);
(0,61939687390,3600,-195909410);
(1,61940395237,3600,-195201563);
(2,61940987810,0,-194608990);
(3,61941566300,0,-194030500);
(0,61942258273,0,-193338527);
(1,61942953367,0,-192643433);
(2,61943529333,0,-192067467);
(3,61944125714,0,-191471086);
(0,61944833235,0,-190763565);
(1,61945502084,0,-190094716);
(2,61946075098,0,-189521702)]).
Definition file_1964 : file := (true, ""%string, [
(3,61946697577,0,-188899223);
(0,61947405876,0,-188190924);
(1,61948042140,0,-187554660);
(2,61948625008,0,-186971792);
(3,61949277898,0,-186318902);
(0,61949970178,0,-185626622);
(1,61950576285,0,-185020515);
(2,61951178382,0,-184418418);
(3,61951860156,0,-183736644);
(0,61952523345,0,-183073455);
(1,61953107996,0,-182488804);
(2,61953734920,3600,-181861880);
(3,61954436838,3600,-181159962);
(0,61955066334,3600,-180530466);
(1,61955640581,3600,-179956219);
(2,61956294586,3600,-179302214);
(3,61957002084,3600,-178594716);
(0,61957602171,3600,-177994629);
(1,61958176943,3600,-177419857);
(2,61958856549,3600,-176740251);
(3,61959553693,3600,-176043107);
(0,61960134197,3600,-175462603);
(1,61960719723,3600,-174877077);
(2,61961418526,3600,-174178274);
(3,61962093085,3600,-173503715);
(0,61962665493,3600,-172931307);
(1,61963271238,3600,-172325562);
(2,61963977547,3600,-171619253);
(3,61964623811,3600,-170972989);
(0,61965199048,3600,-170397752);
(1,61965832784,3600,-169764016);
(2,61966531603,3600,-169065197);
(3,61967150178,3600,-168446622);
(0,61967738062,3600,-167858738);
(1,61968403435,3600,-167193365);
(2,61969080757,3600,-166516043);
(3,61969676586,3600,-165920214);
(0,61970285968,3600,-165310832);
(1,61970979371,3600,-164617429);
(2,61971626811,3600,-163969989);
(3,61972207245,0,-163389555);
(0,61972845393,0,-162751407);
(1,61973554802,0,-162041998);
(2,61974171856,0,-161424944);
(3,61974745954,0,-160850846);
(0,61975415952,0,-160180848);
(1,61976124102,0,-159472698);
(2,61976716926,0,-158879874);
(3,61977295713,0,-158301087)]).
Definition file_1965 : file := (true, ""%string, [
(0,61977992867,0,-157603933);
(1,61978683587,0,-156913213);
(2,61979261862,0,-156334938);
(3,61979857724,0,-155739076);
(0,61980568606,0,-155028194);
(1,61981231966,0,-154364834);
(2,61981806423,0,-153790377);
(3,61982430069,0,-153166731);
(0,61983136670,0,-152460130);
(1,61983769977,0,-151826823);
(2,61984351471,0,-151245329);
(3,61985007496,3600,-150589304);
(0,61985694167,3600,-149902633);
(1,61986300057,3600,-149296743);
(2,61986898979,3600,-148697821);
(3,61987583303,3600,-148013497);
(0,61988241457,3600,-147355343);
(1,61988826061,3600,-146770739);
(2,61989450783,3600,-146146017);
(3,61990152138,3600,-145444662);
(0,61990780447,3600,-144816353);
(1,61991352743,3600,-144244057);
(2,61992007242,3600,-143589558);
(3,61992711503,3600,-142885297);
(0,61993313612,3600,-142283188);
(1,61993885038,3600,-141711762);
(2,61994566983,3600,-141029817);
(3,61995261312,3600,-140335488);
(0,61995843950,3600,-139752850);
(1,61996427252,3600,-139169548);
(2,61997127840,3600,-138468960);
(3,61997802727,3600,-137794073);
(0,61998375078,3600,-137221722);
(1,61998982043,3600,-136614757);
(2,61999688028,3600,-135908772);
(3,62000337582,3600,-135259218);
(0,62000911086,3600,-134685714);
(1,62001549405,3600,-134047395);
(2,62002246531,3600,-133350269);
(3,62002868467,3600,-132728333);
(0,62003455894,0,-132140906);
(1,62004126339,0,-131470461);
(2,62004802617,0,-130794183);
(3,62005398927,0,-130197873);
(0,62006011852,0,-129584948);
(1,62006707511,0,-128889289);
(2,62007355349,0,-128241451);
(3,62007933220,0,-127663580);
(0,62008578258,0,-127018542)]).
Definition file_1966 : file := (true, ""%string, [
(2,62009903823,0,-125692977);
(3,62010475295,0,-125121505);
(0,62011151260,0,-124445540);
(1,62011856973,0,-123739827);
(2,62012447925,0,-123148875);
(3,62013027261,0,-122569539);
(0,62013725433,0,-121871367);
(1,62014414547,0,-121182253);
(2,62014988771,0,-120608029);
(3,62015588409,0,-120008391);
(0,62016295667,3600,-119301133);
(1,62016957831,3600,-118638969);
(2,62017528437,3600,-118068363);
(3,62018155757,3600,-117441043);
(0,62018858201,3600,-116738599);
(1,62019488967,3600,-116107833);
(2,62020069259,3600,-115527541);
(3,62020725624,3600,-114871176);
(0,62021411019,3600,-114185781);
(1,62022012633,3600,-113584167);
(2,62022613233,3600,-112983567);
(3,62023294809,3600,-112301991);
(0,62023954172,3600,-111642628);
(1,62024534568,3600,-111062232);
(2,62025161803,3600,-110434997);
(3,62025860704,3600,-109736096);
(0,62026489823,3600,-109106977);
(1,62027060407,3600,-108536393);
(2,62027715942,3600,-107880858);
(3,62028421034,3600,-107175766);
(0,62029021672,3600,-106575128);
(1,62029594923,3600,-106001877);
(2,62030276054,3600,-105320746);
(3,62030974077,3600,-104622723);
(0,62031554003,3600,-104042797);
(1,62032141474,3600,-103455326);
(2,62032841303,3600,-102755497);
(3,62033519316,3600,-102077484);
(0,62034090713,3600,-101506087);
(1,62034701653,3600,-100895147);
(2,62035408891,0,-100187909);
(3,62036057916,0,-99538884);
(0,62036634430,0,-98962370);
(1,62037274835,0,-98321965);
(2,62037974521,0,-97622279);
(3,62038592584,0,-97004216);
(0,62039186087,0,-96410713);
(1,62039857355,0,-95739445);
(2,62040534293,0,-95062507)]).
Definition file_1967 : file := (true, ""%string, [
(3,62041126824,0,-94469976);
(0,62041745269,0,-93851531);
(1,62042442179,0,-93154621);
(2,62043086529,0,-92510271);
(3,62043663877,0,-91932923);
(0,62044310748,0,-91286052);
(1,62045020637,0,-90576163);
(2,62045631890,0,-89964910);
(3,62046205917,0,-89390883);
(0,62046880290,0,-88716510);
(1,62047585910,3600,-88010890);
(2,62048172119,3600,-87424681);
(3,62048753980,3600,-86842820);
(0,62049450099,3600,-86146701);
(1,62050135656,3600,-85461144);
(2,62050709033,3600,-84887767);
(3,62051308440,3600,-84288360);
(0,62052015404,3600,-83581396);
(1,62052671829,3600,-82924971);
(2,62053244525,3600,-82352275);
(3,62053869213,3600,-81727587);
(0,62054572475,3600,-81024325);
(1,62055198697,3600,-80398103);
(2,62055780994,3600,-79815806);
(3,62056435274,3600,-79161526);
(0,62057120431,3600,-78476369);
(1,62057721204,3600,-77875596);
(2,62058321538,3600,-77275262);
(3,62059004124,3600,-76592676);
(0,62059661300,3600,-75935500);
(1,62060244327,3600,-75352473);
(2,62060869585,3600,-74727215);
(3,62061572149,3600,-74024651);
(0,62062198614,3600,-73398186);
(1,62062772837,3600,-72823963);
(2,62063427591,3600,-72169209);
(3,62064135870,3600,-71460930);
(0,62064735826,3600,-70860974);
(1,62065311125,3600,-70285675);
(2,62065995129,3600,-69601671);
(3,62066693074,3600,-68903726);
(0,62067275313,0,-68321487);
(1,62067862814,0,-67733986);
(2,62068568050,0,-67028750);
(3,62069243037,0,-66353763);
(0,62069818232,0,-65778568);
(1,62070429458,0,-65167342);
(2,62071140179,0,-64456621);
(3,62071786126,0,-63810674)]).
Definition file_1968 : file := (true, ""%string, [
(1,62073008581,0,-62588219);
(2,62073706383,0,-61890417);
(3,62074323533,0,-61273267);
(0,62074917073,0,-60679727);
(1,62075593209,0,-60003591);
(2,62076264277,0,-59332523);
(3,62076857345,3600,-58739455);
(0,62077474662,3600,-58122138);
(1,62078174421,3600,-57422379);
(2,62078813631,3600,-56783169);
(3,62079390538,3600,-56206262);
(0,62080037403,3600,-55559397);
(1,62080745278,3600,-54851522);
(2,62081355167,3600,-54241633);
(3,62081926576,3600,-53670224);
(0,62082602566,3600,-52994234);
(1,62083302867,3600,-52293933);
(2,62083890314,3600,-51706486);
(3,62084468737,3600,-51128063);
(0,62085166273,3600,-50430527);
(1,62085847618,3600,-49749182);
(2,62086421593,3600,-49175207);
(3,62087019284,3600,-48577516);
(0,62087725527,3600,-47871273);
(1,62088381750,3600,-47215050);
(2,62088952673,3600,-46644127);
(3,62089578737,3600,-46018063);
(0,62090279385,3600,-45317415);
(1,62090908527,3600,-44688273);
(2,62091487940,3600,-44108860);
(3,62092145647,3600,-43451153);
(0,62092828583,3600,-42768217);
(1,62093432167,3600,-42164633);
(2,62094031622,3600,-41565178);
(3,62094717126,3600,-40879674);
(0,62095374456,3600,-40222344);
(1,62095957691,3600,-39639109);
(2,62096586383,3600,-39010417);
(3,62097289623,3600,-38307177);
(0,62097918214,3600,-37678586);
(1,62098490449,3600,-37106351);
(2,62099151938,3600,-36444862);
(3,62099859305,3600,-35737495);
(0,62100460878,3600,-35135922);
(1,62101035059,3600,-34561741);
(2,62101724909,3600,-33871891);
(3,62102422250,3600,-33174550);
(0,62103003558,3600,-32593242);
(1,62103593665,3600,-32003135)]).
Definition file_1969 : file := (true, ""%string, [
(2,62104300123,3600,-31296677);
(3,62104975275,3600,-30621525);
(0,62105547626,3600,-30049174);
(1,62106164558,3600,-29432242);
(2,62106872226,3600,-28724574);
(3,62107517341,3600,-28079459);
(0,62108094456,3600,-27502344);
(1,62108742595,3600,-26854205);
(2,62109436736,3600,-26160064);
(3,62110050322,3600,-25546478);
(0,62110644852,3600,-24951948);
(1,62111321338,3600,-24275462);
(2,62111990833,3600,-23605967);
(3,62112578358,3600,-23018442);
(0,62113198712,3600,-22398088);
(1,62113895170,3600,-21701630);
(2,62114534127,3600,-21062673);
(3,62115106375,3600,-20490425);
(0,62115755302,3600,-19841498);
(1,62116460191,3600,-19136609);
(2,62117068784,3600,-18528016);
(3,62117638835,3600,-17957965);
(0,62118313818,3600,-17282982);
(1,62119014324,3600,-16582476);
(2,62119598701,3600,-15998099);
(3,62120179080,3600,-15417720);
(0,62120873528,3600,-14723272);
(1,62121557431,3600,-14039369);
(2,62122128354,3600,-13468446);
(3,62122729164,3600,-12867636);
(0,62123433379,3600,-12163421);
(1,62124091410,3600,-11505390);
(2,62124661948,3600,-10934852);
(3,62125289916,3600,-10306884);
(0,62125991693,3600,-9605107);
(1,62126619880,3600,-8976920);
(2,62127202813,3600,-8393987);
(3,62127860765,3600,-7736035);
(0,62128546663,3600,-7050137);
(1,62129147508,3600,-6449292);
(2,62129753000,3600,-5843800);
(3,62130438904,3600,-5157896);
(0,62131097393,3600,-4499407);
(1,62131679107,3600,-3917693);
(2,62132313187,3600,-3283613);
(3,62133018679,3600,-2578121);
(0,62133644463,3600,-1952337);
(1,62134218559,3600,-1378241);
(2,62134882486,3600,-714314)]).
Definition file_1970 : file := (true, "warn_no_data"%string, [
]).
Definition file_1971 : file := (true, ""%string, [
(1,62167409728,3600,31812928);
(2,62168044791,3600,32447991);
(3,62168753309,3600,33156509);
(0,62169375296,3600,33778496);
(1,62169949866,3600,34353066);
(2,62170616450,3600,35019650);
(3,62171324049,3600,35727249);
(0,62171920130,3600,36323330);
(1,62172496886,3600,36900086);
(2,62173189988,3600,37593188);
(3,62173881001,3600,38284201);
(0,62174460250,3600,38863450);
(1,62175051959,3600,39455159);
(2,62175759021,3600,40162221);
(3,62176424260,3600,40827460);
(0,62176996961,3600,41400161);
(1,62177614407,3600,42017607);
(2,62178319471,3600,42722671);
(3,62178956110,3600,43359310);
(0,62179533176,3600,43936376);
(1,62180181669,3600,44584869);
(2,62180870682,3600,45273882);
(3,62181480299,3600,45883499);
(0,62182072704,3600,46475904);
(1,62182750212,3600,47153412);
(2,62183414282,3600,47817482);
(3,62184001694,3600,48404894);
(0,62184618957,3600,49022157);
(1,62185316842,3600,49720042);
(2,62185952644,3600,50355844);
(3,62186525828,3600,50929028);
(0,62187173662,3600,51576862);
(1,62187879437,3600,52282637);
(2,62188488238,3600,52891438);
(3,62189058303,3600,53461503);
(0,62189736196,3600,54139396);
(1,62190436716,3600,54839916);
(2,62191023645,3600,55426845);
(3,62191603844,3600,56007044);
(0,62192303987,3600,56707187);
(1,62192987706,3600,57390906);
(2,62193561624,0,57964824);
(3,62194164733,0,58567933);
(0,62194873576,0,59276776);
(1,62195531832,0,59935032);
(2,62196104928,0,60508128);
(3,62196739358,0,61142558);
(0,62197441373,0,61844573);
(1,62198069714,0,62472914)]).
Definition file_1972 : file := (true, ""%string, [
(3,62199322267,0,63725467);
(0,62200003940,0,64407140);
(1,62200603746,0,65006946);
(2,62201213878,0,65617078);
(3,62201905966,0,66309166);
(0,62202558536,0,66961736);
(1,62203137639,0,67540839);
(2,62203777880,0,68181080);
(3,62204483224,0,68886424);
(0,62205104109,0,69507309);
(1,62205675112,3600,70078312);
(2,62206344296,3600,70747496);
(3,62207048737,3600,71451937);
(0,62207641889,3600,72045089);
(1,62208218688,3600,72621888);
(2,62208909851,3600,73313051);
(3,62209600026,3600,74003226);
(0,62210174928,3600,74578128);
(1,62210769320,3600,75172520);
(2,62211472064,3600,75875264);
(3,62212137726,3600,76540926);
(0,62212707053,3600,77110253);
(1,62213326804,3600,77730004);
(2,62214029211,3600,78432411);
(3,62214665165,3600,79068365);
(0,62215241981,3600,79645181);
(1,62215890340,3600,80293540);
(2,62216580287,3600,80983487);
(3,62217187393,3600,81590593);
(0,62217782796,3600,82185996);
(1,62218458605,3600,82861805);
(2,62219125392,3600,83528592);
(3,62219710166,3600,84113366);
(0,62220331736,3600,84734936);
(1,62221029245,3600,85432445);
(2,62221666101,3600,86069301);
(3,62222239061,3600,86642261);
(0,62222890096,3600,87293296);
(1,62223598522,3600,88001722);
(2,62224205195,3600,88608395);
(3,62224778551,0,89181751);
(0,62225457708,0,89860908);
(1,62226162048,0,90565248);
(2,62226745668,0,91148868);
(3,62227331141,0,91734341);
(0,62228031868,0,92435068);
(1,62228716519,0,93119719);
(2,62229289542,0,93692742);
(3,62229896878,0,94300078)]).
Definition file_1973 : file := (true, ""%string, [
(0,62230606946,0,95010146);
(1,62231261183,0,95664383);
(2,62231837293,0,96240493);
(3,62232473155,0,96876355);
(0,62233176185,0,97579385);
(1,62233797883,0,98201083);
(2,62234388378,0,98791578);
(3,62235054713,0,99457913);
(0,62235734899,0,100138099);
(1,62236329927,0,100733127);
(2,62236942362,3600,101345562);
(3,62237634458,3600,102037658);
(0,62238282355,3600,102685555);
(1,62238860881,3600,103264081);
(2,62239499399,3600,103902599);
(3,62240205587,3600,104608787);
(0,62240820939,3600,105224139);
(1,62241394008,3600,105797208);
(2,62242059476,3600,106462676);
(3,62242764050,3600,107167250);
(0,62243354107,3600,107757307);
(1,62243932260,3600,108335460);
(2,62244621299,3600,109024499);
(3,62245309557,3600,109712757);
(0,62245885168,3600,110288368);
(1,62246478356,3600,110881556);
(2,62247182208,3600,111585408);
(3,62247844693,3600,112247893);
(0,62248417163,3600,112820363);
(1,62249034420,3600,113437620);
(2,62249739471,3600,114142671);
(3,62250373385,3600,114776585);
(0,62250953142,3600,115356342);
(1,62251600923,3600,116004123);
(2,62252291871,3600,116695071);
(3,62252899907,3600,117303107);
(0,62253496420,3600,117899620);
(1,62254175498,3600,118578698);
(2,62254840237,3600,119243437);
(3,62255428473,3600,119831673);
(0,62256050182,3600,120453382);
(1,62256752936,0,121156136);
(2,62257386506,0,121789706);
(3,62257963003,0,122366203);
(0,62258615758,0,123018958);
(1,62259326935,0,123730135);
(2,62259932160,0,124335360);
(3,62260506884,0,124910084);
(0,62261190493,0,125593693)]).
Definition file_1974 : file := (true, ""%string, [
(1,62261892414,0,126295614);
(2,62262477420,0,126880620);
(3,62263062322,0,127465522);
(0,62263767773,0,128170973);
(1,62264446759,0,128849959);
(2,62265021864,0,129425064);
(3,62265629124,0,130032324);
(0,62266340109,0,130743309);
(1,62266989741,0,131392941);
(2,62267565775,0,131968975);
(3,62268203780,0,132606980);
(0,62268902728,3600,133305928);
(1,62269523049,3600,133926249);
(2,62270110805,3600,134514005);
(3,62270780271,3600,135183471);
(0,62271454644,3600,135857844);
(1,62272049972,3600,136453172);
(2,62272659249,3600,137062449);
(3,62273352545,3600,137755745);
(0,62273997279,3600,138400479);
(1,62274575007,3600,138978207);
(2,62275212563,3600,139615763);
(3,62275916761,3600,140319961);
(0,62276532939,3600,140936139);
(1,62277103207,3600,141506407);
(2,62277770423,3600,142173623);
(3,62278471739,3600,142874939);
(0,62279064376,3600,143467576);
(1,62279639435,3600,144042635);
(2,62280331048,3600,144734248);
(3,62281018007,3600,145421207);
(0,62281594882,3600,145998082);
(1,62282187450,3600,146590650);
(2,62282892335,3600,147295535);
(3,62283556898,3600,147960098);
(0,62284128298,3600,148531498);
(1,62284748785,3600,149151985);
(2,62285452739,3600,149855939);
(3,62286090377,3600,150493577);
(0,62286668667,3600,151071867);
(1,62287321907,3600,151725107);
(2,62288011220,0,152414420);
(3,62288621304,0,153024504);
(0,62289219215,0,153622415);
(1,62289902372,0,154305572);
(2,62290566690,0,154969890);
(3,62291153506,0,155556706);
(0,62291780769,0,156183969);
(1,62292483896,0,156887096);
(2,62293117929,0,157521129)]).
Definition file_1975 : file := (true, ""%string, [
(3,62293691170,0,158094370);
(0,62294350884,0,158754084);
(1,62295059772,0,159462972);
(2,62295664233,0,160067433);
(3,62296237484,0,160640684);
(0,62296924710,0,161327910);
(1,62297624375,0,162027575);
(2,62298206122,0,162609322);
(3,62298793260,0,163196460);
(0,62299496927,0,163900127);
(1,62300174697,3600,164577897);
(2,62300745387,3600,165148587);
(3,62301356713,3600,165759913);
(0,62302063198,3600,166466398);
(1,62302711259,3600,167114459);
(2,62303284481,3600,167687681);
(3,62303924629,3600,168327829);
(0,62304620725,3600,169023925);
(1,62305237709,3600,169640909);
(2,62305825792,3600,170228992);
(3,62306493792,3600,170896992);
(0,62307168547,3600,171571747);
(1,62307759471,3600,172162671);
(2,62308371213,3600,172774413);
(3,62309061517,3600,173464717);
(0,62309707787,3600,174110987);
(1,62310282389,3600,174685589);
(2,62310922091,3600,175325291);
(3,62311625402,3600,176028602);
(0,62312241428,3600,176644628);
(1,62312811814,3600,177215014);
(2,62313479270,3600,177882470);
(3,62314183245,3600,178586445);
(0,62314773523,3600,179176723);
(1,62315351935,3600,179755135);
(2,62316042672,3600,180445872);
(3,62316733588,3600,181136788);
(0,62317308206,3600,181711406);
(1,62317905297,3600,182308497);
(2,62318610423,3600,183013623);
(3,62319276438,0,183679638);
(0,62319848710,0,184251910);
(1,62320472430,0,184875630);
(2,62321178574,0,185581774);
(3,62321813543,0,186216743);
(0,62322396655,0,186799855);
(1,62323051195,0,187454395);
(2,62323742449,0,188145649);
(3,62324347968,0,188751168)]).
Definition file_1976 : file := (true, ""%string, [
(0,62324952082,0,189355282);
(1,62325636060,0,190039260);
(2,62326298903,0,190702103);
(3,62326883137,0,191286337);
(0,62327514103,0,191917303);
(1,62328218751,0,192621951);
(2,62328847475,0,193250675);
(3,62329421828,0,193825028);
(0,62330081175,0,194484375);
(1,62330791117,0,195194317);
(2,62331389626,0,195792826);
(3,62331965724,3600,196368924);
(0,62332650545,3600,197053745);
(1,62333348507,3600,197751707);
(2,62333927346,3600,198330546);
(3,62334515690,3600,198918890);
(0,62335218018,3600,199621218);
(1,62335890987,3600,200294187);
(2,62336462609,3600,200865809);
(3,62337072172,3600,201475372);
(0,62337779242,3600,202182442);
(1,62338421946,3600,202825146);
(2,62338997646,3600,203400846);
(3,62339634991,3600,204038191);
(0,62340331811,3600,204735011);
(1,62340946101,3600,205349301);
(2,62341535295,3600,205938495);
(3,62342202636,3600,206605836);
(0,62342876316,3600,207279516);
(1,62343468429,3600,207871629);
(2,62344078977,3600,208482177);
(3,62344772011,3600,209175211);
(0,62345415628,3600,209818828);
(1,62345993812,3600,210397012);
(2,62346631920,3600,211035120);
(3,62347339267,3600,211742467);
(0,62347953299,3600,212356499);
(1,62348526836,3600,212930036);
(2,62349195390,3600,213598590);
(3,62349901187,3600,214304387);
(0,62350492194,3600,214895394);
(1,62351071567,0,215474767);
(2,62351766980,0,216170180);
(3,62352456002,0,216859202);
(0,62353033876,0,217437076);
(1,62353630766,0,218033966);
(2,62354340976,0,218744176);
(3,62355003320,0,219406520);
(0,62355578949,0,219982149);
(1,62356204107,0,220607307)]).
Definition file_1977 : file := (true, ""%string, [
(2,62356911140,0,221314340);
(3,62357543768,0,221946968);
(0,62358127992,0,222531192);
(1,62358786709,0,223189909);
(2,62359473511,0,223876711);
(3,62360078922,0,224482122);
(0,62360681971,0,225085171);
(1,62361370229,0,225773429);
(2,62362026935,0,226430135);
(3,62362611392,0,227014592);
(0,62363241331,0,227644531);
(1,62363946471,3600,228349671);
(2,62364571862,3600,228975062);
(3,62365144600,3600,229547800);
(0,62365804686,3600,230207886);
(1,62366510603,3600,230913803);
(2,62367109485,3600,231512685);
(3,62367682200,3600,232085400);
(0,62368368807,3600,232772007);
(1,62369061646,3600,233464846);
(2,62369641876,3600,234045076);
(3,62370227293,3600,234630493);
(0,62370930236,3600,235333436);
(1,62371601059,3600,236004259);
(2,62372172239,3600,236575439);
(3,62372781589,3600,237184789);
(0,62373486999,3600,237890199);
(1,62374131534,3600,238534734);
(2,62374704708,3600,239107908);
(3,62375344809,3600,239748009);
(0,62376039019,3600,240442219);
(1,62376656710,3600,241059910);
(2,62377243743,3600,241646943);
(3,62377914772,3600,242317972);
(0,62378587300,3600,242990500);
(1,62379181136,3600,243584336);
(2,62379792991,3600,244196191);
(3,62380488088,3600,244891288);
(0,62381132968,3600,245536168);
(1,62381709997,3600,246113197);
(2,62382353726,0,246756926);
(3,62383060802,0,247464002);
(0,62383676911,0,248080111);
(1,62384248383,0,248651583);
(2,62384923937,0,249327137);
(3,62385628671,0,250031871);
(0,62386219972,0,250623172);
(1,62386799824,0,251203024);
(2,62387499011,0,251902211)]).
Definition file_1978 : file := (true, ""%string, [
(3,62388187718,0,252590918);
(0,62388763269,0,253166469);
(1,62389364564,0,253767764);
(2,62390073420,0,254476620);
(3,62390735531,0,255138731);
(0,62391308197,0,255711397);
(1,62391939033,0,256342233);
(2,62392642111,0,257045311);
(3,62393272524,0,257675724);
(0,62393855973,0,258259173);
(1,62394517318,0,258920518);
(2,62395201376,3600,259604576);
(3,62395801943,3600,260205143);
(0,62396407118,3600,260810318);
(1,62397093467,3600,261496667);
(2,62397749638,3600,262152838);
(3,62398328621,3600,262731821);
(0,62398961394,3600,263364594);
(1,62399662911,3600,264066111);
(2,62400287939,3600,264691139);
(3,62400857506,3600,265260706);
(0,62401518234,3600,265921434);
(1,62402222754,3600,266625954);
(2,62402819529,3600,267222729);
(3,62403392714,3600,267795914);
(0,62404077096,3600,268480296);
(1,62404771812,3600,269175012);
(2,62405348757,3600,269751957);
(3,62405937115,3600,270340315);
(0,62406637252,3600,271040452);
(1,62407310823,3600,271714023);
(2,62407880056,3600,272283256);
(3,62408492286,3600,272895486);
(0,62409197290,3600,273600490);
(1,62409842424,3600,274245624);
(2,62410417232,3600,274820432);
(3,62411058492,3600,275461692);
(0,62411755165,3600,276158365);
(1,62412370681,3600,276773881);
(2,62412962927,3600,277366127);
(3,62413634127,3600,278037327);
(0,62414309119,0,278712319);
(1,62414900312,0,279303512);
(2,62415518386,0,279921586);
(3,62416214774,0,280617974);
(0,62416858729,0,281261929);
(1,62417435679,0,281838879);
(2,62418083454,0,282486654);
(3,62418793388,0,283196588);
(0,62419404974,0,283808174)]).
Definition file_1979 : file := (true, ""%string, [
(1,62419979731,0,284382931);
(2,62420656154,0,285059354);
(3,62421362676,0,285765876);
(0,62421949252,0,286352452);
(1,62422533401,0,286936601);
(2,62423232000,0,287635200);
(3,62423918276,0,288321476);
(0,62424492429,0,288895629);
(1,62425095800,0,289499000);
(2,62425804527,0,290207727);
(3,62426460140,3600,290863340);
(0,62427034899,3600,291438099);
(1,62427664708,3600,292067908);
(2,62428367840,3600,292771040);
(3,62428991435,3600,293394635);
(0,62429577422,3600,293980622);
(1,62430236808,3600,294640008);
(2,62430919407,3600,295322607);
(3,62431516664,3600,295919864);
(0,62432121754,3600,296524954);
(1,62432807915,3600,297211115);
(2,62433460651,3600,297863851);
(3,62434040545,3600,298443745);
(0,62434670374,3600,299073574);
(1,62435373869,3600,299777069);
(2,62435995290,3600,300398490);
(3,62436567644,3600,300970844);
(0,62437225311,3600,301628511);
(1,62437931892,3600,302335092);
(2,62438527384,3600,302930584);
(3,62439102244,3600,303505444);
(0,62439786674,3600,304189874);
(1,62440481386,3600,304884586);
(2,62441060379,3600,305463579);
(3,62441648219,3600,306051419);
(0,62442352015,3600,306755215);
(1,62443023616,3600,307426816);
(2,62443596943,3600,308000143);
(3,62444208307,3600,308611507);
(0,62444917384,3600,309320584);
(1,62445560785,0,309963985);
(2,62446139232,0,310542432);
(3,62446782326,0,311185526);
(0,62447479419,0,311882619);
(1,62448095364,0,312498564);
(2,62448689267,0,313092467);
(3,62449365599,0,313768799);
(0,62450036619,0,314439819);
(1,62450629929,0,315033129)]).
Definition file_1980 : file := (true, ""%string, [
(2,62451248557,0,315651757);
(3,62451949842,0,316353042);
(0,62452588808,0,316992008);
(1,62453167175,0,317570375);
(2,62453816516,0,318219716);
(3,62454526615,0,318929815);
(0,62455135925,0,319539125);
(1,62455709724,0,320112924);
(2,62456389216,0,320792416);
(3,62457090614,0,321493814);
(0,62457677843,3600,322081043);
(1,62458259557,3600,322662757);
(2,62458960498,3600,323363698);
(3,62459640446,3600,324043646);
(0,62460215281,3600,324618481);
(1,62460817228,3600,325220428);
(2,62461525036,3600,325928236);
(3,62462177508,3600,326580708);
(0,62462750539,3600,327153739);
(1,62463381388,3600,327784588);
(2,62464080598,3600,328483798);
(3,62464704899,3600,329108099);
(0,62465287237,3600,329690437);
(1,62465949131,3600,330352331);
(2,62466627884,3600,331031084);
(3,62467226971,3600,331630171);
(0,62467829270,3600,332232470);
(1,62468517098,3600,332920298);
(2,62469168987,3600,333572187);
(3,62469748985,3600,334152185);
(0,62470379470,3600,334782670);
(1,62471082577,3600,335485777);
(2,62471706276,3600,336109476);
(3,62472276607,3600,336679807);
(0,62472938500,3600,337341700);
(1,62473643761,3600,338046961);
(2,62474242158,3600,338645358);
(3,62474815182,3600,339218382);
(0,62475504636,3600,339907836);
(1,62476199293,3600,340602493);
(2,62476779171,3600,341182371);
(3,62477368426,0,341771626);
(0,62478074579,0,342477779);
(1,62478748028,0,343151228);
(2,62479319967,0,343723167);
(3,62479936728,0,344339928);
(0,62480644513,0,345047713);
(1,62481289623,0,345692823);
(2,62481866907,0,346270107);
(3,62482516328,0,346919528)]).
Definition file_1981 : file := (true, ""%string, [
(0,62483210656,0,347613856);
(1,62483825430,0,348228630);
(2,62484421162,0,348824362);
(3,62485100409,0,349503609);
(0,62485769673,0,350172873);
(1,62486358605,0,350761805);
(2,62486981918,0,351385118);
(3,62487681401,0,352084601);
(0,62488319544,0,352722744);
(1,62488893105,0,353296305);
(2,62489546585,0,353949785);
(3,62490253015,0,354656215);
(0,62490860470,3600,355263670);
(1,62491432301,3600,355835501);
(2,62492111998,3600,356515198);
(3,62492811416,3600,357214616);
(0,62493394866,3600,357798066);
(1,62493978151,3600,358381351);
(2,62494675506,3600,359078706);
(3,62495355738,3600,359758938);
(0,62495926435,3600,360329635);
(1,62496531227,3600,360934427);
(2,62497235189,3600,361638389);
(3,62497888023,3600,362291223);
(0,62498459125,3600,362862325);
(1,62499091223,3600,363494423);
(2,62499789680,3600,364192880);
(3,62500412516,3600,364815716);
(0,62500996443,3600,365399643);
(1,62501657277,3600,366060477);
(2,62502338356,3600,366741556);
(3,62502934659,3600,367337859);
(0,62503541101,3600,367944301);
(1,62504227664,3600,368630864);
(2,62504881864,3600,369285064);
(3,62505460174,3600,369863374);
(0,62506094890,3600,370498090);
(1,62506799203,3600,371202403);
(2,62507422282,3600,371825482);
(3,62507994158,3600,372397358);
(0,62508658439,0,373061639);
(1,62509367370,0,373770570);
(2,62509962487,0,374365687);
(3,62510540123,0,374943323);
(0,62511230349,0,375633549);
(1,62511927741,0,376330941);
(2,62512504958,0,376908158);
(3,62513099298,0,377502498);
(0,62513806241,0,378209441)]).
Definition file_1982 : file := (true, ""%string, [
(1,62514477930,0,378881130);
(2,62515050818,0,379454018);
(3,62515670366,0,380073566);
(0,62516379416,0,380782616);
(1,62517018475,0,381421675);
(2,62517599858,0,382003058);
(3,62518249413,0,382652613);
(0,62518943707,0,383346907);
(1,62519552139,0,383955339);
(2,62520151542,0,384554742);
(3,62520830264,0,385233464);
(0,62521496387,0,385899587);
(1,62522082555,3600,386485755);
(2,62522705937,3600,387109137);
(3,62523405892,3600,387809092);
(0,62524038630,3600,388441830);
(1,62524613301,3600,389016501);
(2,62525263522,3600,389666722);
(3,62525970798,3600,390373998);
(0,62526573713,3600,390976913);
(1,62527147651,3600,391550851);
(2,62527824019,3600,392227219);
(3,62528522846,3600,392926046);
(0,62529105188,3600,393508388);
(1,62529688636,3600,394091836);
(2,62530385575,3600,394788775);
(3,62531063278,3600,395466478);
(0,62531636263,3600,396039463);
(1,62532238947,3600,396642147);
(2,62532945328,3600,397348528);
(3,62533595386,3600,397998586);
(0,62534169951,3600,398573151);
(1,62534800208,3600,399203408);
(2,62535501015,3600,399904215);
(3,62536123212,3600,400526412);
(0,62536709380,3600,401112580);
(1,62537371647,3600,401774847);
(2,62538052236,3600,402455436);
(3,62538650897,3600,403054097);
(0,62539257853,3600,403661053);
(1,62539949265,0,404352465);
(2,62540600321,0,405003521);
(3,62541182408,0,405585608);
(0,62541817835,0,406221035);
(1,62542526744,0,406929944);
(2,62543146951,0,407550151);
(3,62543721334,0,408124534);
(0,62544388769,0,408791969);
(1,62545097837,0,409501037);
(2,62545692827,0,410096027)]).
Definition file_1983 : file := (true, ""%string, [
(3,62546270521,0,410673721);
(0,62546965745,0,411368945);
(1,62547658438,0,412061638);
(2,62548237614,0,412640814);
(3,62548831132,0,413234332);
(0,62549541204,0,413944404);
(1,62550207136,0,414610336);
(2,62550781119,0,415184319);
(3,62551401465,0,415804665);
(0,62552108740,0,416511940);
(1,62552744762,0,417147962);
(2,62553324436,3600,417727636);
(3,62553976794,3600,418379994);
(0,62554665626,3600,419068826);
(1,62555273929,3600,419677129);
(2,62555869877,3600,420273077);
(3,62556551060,3600,420954260);
(0,62557212400,3600,421615600);
(1,62557798696,3600,422201896);
(2,62558419708,3600,422822908);
(3,62559119349,3600,423522549);
(0,62559751125,3600,424154325);
(1,62560324030,3600,424727230);
(2,62560974777,3600,425377977);
(3,62561679250,3600,426082450);
(0,62562284370,3600,426687570);
(1,62562855097,3600,427258297);
(2,62563534114,3600,427937314);
(3,62564230483,3600,428633683);
(0,62564815138,3600,429218338);
(1,62565396468,3600,429799668);
(2,62566095686,3600,430498886);
(3,62566773873,3600,431177073);
(0,62567346968,3600,431750168);
(1,62567951048,3600,432354248);
(2,62568657515,3600,433060715);
(3,62569310833,3600,433714033);
(0,62569883799,3600,434286999);
(1,62570518933,3600,434922133);
(2,62571218143,3600,435621343);
(3,62571843519,0,436246719);
(0,62572429326,0,436832526);
(1,62573096959,0,437500159);
(2,62573776288,0,438179488);
(3,62574375119,0,438778319);
(0,62574985633,0,439388833);
(1,62575679401,0,440082601);
(2,62576330499,0,440733699);
(3,62576909654,0,441312854)]).
Definition file_1984 : file := (true, ""%string, [
(0,62577551823,0,441955023);
(1,62578259378,0,442662578);
(2,62578879550,0,443282750);
(3,62579450955,0,443854155);
(0,62580124046,0,444527246);
(1,62580830422,0,445233622);
(2,62581423283,0,445826483);
(3,62582001175,0,446404375);
(0,62582697102,0,447100302);
(1,62583388060,0,447791260);
(2,62583962995,0,448366195);
(3,62584559924,0,448963124);
(0,62585266228,3600,449669428);
(1,62585931087,3600,450334287);
(2,62586501055,3600,450904255);
(3,62587124796,3600,451527996);
(0,62587827983,3600,452231183);
(1,62588461789,3600,452864989);
(2,62589040125,3600,453443325);
(3,62589692764,3600,454095964);
(0,62590380538,3600,454783738);
(1,62590984927,3600,455388127);
(2,62591582534,3600,455985734);
(3,62592261124,3600,456664324);
(0,62592923965,3600,457327165);
(1,62593506302,3600,457909502);
(2,62594130043,3600,458533243);
(3,62594827471,3600,459230671);
(0,62595460331,3600,459863531);
(1,62596031650,3600,460434850);
(2,62596683880,3600,461087080);
(3,62597389407,3600,461792607);
(0,62597993202,3600,462396402);
(1,62598565875,3600,462969075);
(2,62599244583,3600,463647783);
(3,62599944794,3600,464347994);
(0,62600526723,3600,464929923);
(1,62601112435,3600,465515635);
(2,62601811246,3600,466214446);
(3,62602492538,3600,466895738);
(0,62603064586,3600,467467786);
(1,62603672907,0,468076107);
(2,62604380717,0,468783917);
(3,62605033241,0,469436441);
(0,62605609113,0,470012313);
(1,62606246515,0,470649715);
(2,62606948139,0,471351339);
(3,62607569202,0,471972402);
(0,62608160917,0,472564117);
(1,62608829355,0,473232555)]).
Definition file_1985 : file := (true, ""%string, [
(2,62609509087,0,473912287);
(3,62610103694,0,474506894);
(0,62610719410,0,475122610);
(1,62611414227,0,475817427);
(2,62612061623,0,476464823);
(3,62612639895,0,477043095);
(0,62613283460,0,477686660);
(1,62613992488,0,478395688);
(2,62614606461,0,479009661);
(3,62615180117,0,479583317);
(0,62615851205,0,480254405);
(1,62616557501,0,480960701);
(2,62617145600,3600,481548800);
(3,62617725756,3600,482128956);
(0,62618419393,3600,482822593);
(1,62619107105,3600,483510305);
(2,62619681188,3600,484084388);
(3,62620277702,3600,484680902);
(0,62620983741,3600,485386941);
(1,62621643323,3600,486046523);
(2,62622215419,3600,486618619);
(3,62622836446,3600,487239646);
(0,62623540739,3600,487943939);
(1,62624170392,3600,488573592);
(2,62624750899,3600,489154099);
(3,62625401482,3600,489804682);
(0,62626089413,3600,490492613);
(1,62626693192,3600,491096392);
(2,62627290854,3600,491694054);
(3,62627970625,3600,492373825);
(0,62628631538,3600,493034738);
(1,62629216650,3600,493619850);
(2,62629838820,3600,494242020);
(3,62630540207,3600,494943407);
(0,62631170400,3600,495573600);
(1,62631745494,3600,496148694);
(2,62632397345,3600,496800545);
(3,62633106313,3600,497509513);
(0,62633709216,3600,498112416);
(1,62634284064,3600,498687264);
(2,62634965958,0,499369158);
(3,62635666080,0,500069280);
(0,62636250064,0,500653264);
(1,62636835883,0,501239083);
(2,62637540232,0,501943432);
(3,62638218169,0,502621369);
(0,62638793757,0,503196957);
(1,62639402347,0,503805547);
(2,62640113554,0,504516754)]).
Definition file_1986 : file := (true, ""%string, [
(3,62640762524,0,505165724);
(0,62641340642,0,505743842);
(1,62641980865,0,506384065);
(2,62642680415,0,507083615);
(3,62643300145,0,507703345);
(0,62643891488,0,508294688);
(1,62644564541,0,508967741);
(2,62645238285,0,509641485);
(3,62645833149,0,510236349);
(0,62646447268,0,510850468);
(1,62647144761,0,511547961);
(2,62647787042,0,512190242);
(3,62648364710,3600,512767910);
(0,62649007846,3600,513411046);
(1,62649714949,3600,514118149);
(2,62650327679,3600,514730879);
(3,62650898616,3600,515301816);
(0,62651571105,3600,515974305);
(1,62652272421,3600,516675621);
(2,62652861929,3600,517265129);
(3,62653438550,3600,517841750);
(0,62654133717,3600,518536917);
(1,62654817625,3600,519220825);
(2,62655392523,3600,519795723);
(3,62655987248,3600,520390448);
(0,62656692939,3600,521096139);
(1,62657352652,3600,521755852);
(2,62657923224,3600,522326424);
(3,62658545692,3600,522948892);
(0,62659247747,3600,523650947);
(1,62659880559,3600,524283759);
(2,62660458437,3600,524861637);
(3,62661112740,3600,525515940);
(0,62661798595,3600,526201795);
(1,62662405336,3600,526808536);
(2,62663002395,3600,527405595);
(3,62663685495,3600,528088695);
(0,62664346448,3600,528749648);
(1,62664931796,3600,529334996);
(2,62665557715,3600,529960915);
(3,62666260051,3600,530663251);
(0,62666892103,0,531295303);
(1,62667465124,0,531868324);
(2,62668123974,0,532527174);
(3,62668831981,0,533235181);
(0,62669436178,0,533839378);
(1,62670009769,0,534412969);
(2,62670697574,0,535100774);
(3,62671396763,0,535799963)]).
Definition file_1987 : file := (true, ""%string, [
(1,62672567720,0,536970920);
(2,62673273132,0,537676332);
(3,62673950823,0,538354023);
(0,62674523220,0,538926420);
(1,62675137254,0,539540454);
(2,62675845184,0,540248384);
(3,62676493024,0,540896224);
(0,62677068813,0,541472013);
(1,62677713491,0,542116691);
(2,62678409285,0,542812485);
(3,62679025354,0,543428554);
(0,62679617295,3600,544020495);
(1,62680290499,3600,544693699);
(2,62680962783,3600,545365983);
(3,62681552149,3600,545955349);
(0,62682168993,3600,546572193);
(1,62682863195,3600,547266395);
(2,62683505503,3600,547908703);
(3,62684078571,3600,548481771);
(0,62684723694,3600,549126894);
(1,62685428010,3600,549831210);
(2,62686039783,3600,550442983);
(3,62686609376,3600,551012576);
(0,62687281061,3600,551684261);
(1,62687982895,3600,552386095);
(2,62688569608,3600,552972808);
(3,62689148247,3600,553551447);
(0,62689840664,3600,554243864);
(1,62690527481,3600,554930681);
(2,62691099483,3600,555502683);
(3,62691697551,3600,556100751);
(0,62692401506,3600,556804706);
(1,62693063297,3600,557466497);
(2,62693633589,3600,558036789);
(3,62694258333,3600,558661533);
(0,62694961667,3600,559364867);
(1,62695593582,3600,559996782);
(2,62696175137,3600,560578337);
(3,62696830047,3600,561233247);
(0,62697518840,3600,561922040);
(1,62698122667,0,562525867);
(2,62698725961,0,563129161);
(3,62699409648,0,563812848);
(0,62700071554,0,564474754);
(1,62700655092,0,565058292);
(2,62701286491,0,565689691);
(3,62701991016,0,566394216);
(0,62702619935,0,567023135);
(1,62703194520,0,567597720)]).
Definition file_1988 : file := (true, ""%string, [
(2,62703855675,0,568258875);
(3,62704566339,0,568969539);
(0,62705165211,0,569568411);
(1,62705742869,0,570146069);
(2,62706430343,0,570833543);
(3,62707129335,0,571532535);
(0,62707708575,0,572111775);
(1,62708300152,0,572703352);
(2,62709004924,0,573408124);
(3,62709677818,0,574081018);
(0,62710250675,0,574653875);
(1,62710864954,0,575268154);
(2,62711572987,3600,575976187);
(3,62712213666,3600,576616866);
(0,62712792132,3600,577195332);
(1,62713434795,3600,577837995);
(2,62714130192,3600,578533392);
(3,62714740991,3600,579144191);
(0,62715334356,3600,579737556);
(1,62716006190,3600,580409390);
(2,62716676135,3600,581079335);
(3,62717264548,3600,581667748);
(0,62717879726,3600,582282926);
(1,62718575024,3600,582978224);
(2,62719213662,3600,583616862);
(3,62719789073,3600,584192273);
(0,62720430849,3600,584834049);
(1,62721137693,3600,585540893);
(2,62721746836,3600,586150036);
(3,62722319078,3600,586722278);
(0,62722989108,3600,587392308);
(1,62723692330,3600,588095530);
(2,62724279445,3600,588682645);
(3,62724858745,3600,589261945);
(0,62725553382,3600,589956582);
(1,62726239127,3600,590642327);
(2,62726814472,3600,591217672);
(3,62727411596,3600,591814796);
(0,62728120132,3600,592523332);
(1,62728779681,3600,593182881);
(2,62729354151,0,593757351);
(3,62729979168,0,594382368);
(0,62730685180,0,595088380);
(1,62731316146,0,595719346);
(2,62731900386,0,596303586);
(3,62732559026,0,596962226);
(0,62733245751,0,597648951);
(1,62733850862,0,598254062);
(2,62734454933,0,598858133)]).
Definition file_1989 : file := (true, ""%string, [
(0,62735800943,0,600204143);
(1,62736386367,0,600789567);
(2,62737018430,0,601421630);
(3,62737725798,0,602128998);
(0,62738350666,0,602753866);
(1,62738925364,0,603328564);
(2,62739588741,0,603991941);
(3,62740296580,0,604699780);
(0,62740894807,0,605298007);
(1,62741470339,0,605873539);
(2,62742160730,0,606563930);
(3,62742853370,3600,607256570);
(0,62743433673,3600,607836873);
(1,62744022853,3600,608426053);
(2,62744728503,3600,609131703);
(3,62745396428,3600,609799628);
(0,62745968907,3600,610372107);
(1,62746582822,3600,610986022);
(2,62747288308,3600,611691508);
(3,62747928134,3600,612331334);
(0,62748503694,3600,612906894);
(1,62749148342,3600,613551542);
(2,62749839569,3600,614242769);
(3,62750452247,3600,614855447);
(0,62751042051,3600,615445251);
(1,62751716348,3600,616119548);
(2,62752383831,3600,616787031);
(3,62752973612,3600,617376812);
(0,62753587615,3600,617990815);
(1,62754283761,3600,618686961);
(2,62754923325,3600,619326525);
(3,62755497755,3600,619900955);
(0,62756142336,3600,620545536);
(1,62756848232,3600,621251432);
(2,62757460333,3600,621863533);
(3,62758030309,3600,622433509);
(0,62758705671,3600,623108871);
(1,62759408005,3600,623811205);
(2,62759997187,3600,624400387);
(3,62760576014,3600,624979214);
(0,62761274874,0,625678074);
(1,62761961503,0,626364703);
(2,62762536348,0,626939548);
(3,62763137072,0,627540272);
(0,62763846080,0,628249280);
(1,62764507578,0,628910778);
(2,62765080249,0,629483449);
(3,62765711700,0,630114900);
(0,62766415211,0,630818411)]).
Definition file_1990 : file := (true, ""%string, [
(1,62767046461,0,631449661);
(2,62767630659,0,632033859);
(3,62768294297,0,632697497);
(0,62768978456,0,633381656);
(1,62769580407,0,633983607);
(2,62770187784,0,634590984);
(3,62770877397,0,635280597);
(0,62771532951,0,635936151);
(1,62772113180,0,636516380);
(2,62772749945,0,637153145);
(3,62773453998,0,637857198);
(0,62774077801,3600,638481001);
(1,62774648710,3600,639051910);
(2,62775314349,3600,639717549);
(3,62776019095,3600,640422295);
(0,62776614539,3600,641017739);
(1,62777189899,3600,641593099);
(2,62777878287,3600,642281487);
(3,62778570394,3600,642973594);
(0,62779146507,3600,643549707);
(1,62779738223,3600,644141423);
(2,62780439706,3600,644842906);
(3,62781108524,3600,645511724);
(0,62781677740,3600,646080940);
(1,62782294007,3600,646697207);
(2,62782997053,3600,647400253);
(3,62783636669,3600,648039869);
(0,62784212095,3600,648615295);
(1,62784856862,3600,649260062);
(2,62785549219,3600,649952419);
(3,62786159703,3600,650562903);
(0,62786752748,3600,651155948);
(1,62787425665,3600,651828865);
(2,62788095995,3600,652499195);
(3,62788683244,3600,653086444);
(0,62789301969,3600,653705169);
(1,62789997970,3600,654401170);
(2,62790638574,3600,655041774);
(3,62791212760,3600,655615960);
(0,62791860995,3600,656264195);
(1,62792569602,3600,656972802);
(2,62793179376,0,657582576);
(3,62793752603,0,658155803);
(0,62794429508,0,658832708);
(1,62795135506,0,659538706);
(2,62795721071,0,660124271);
(3,62796305121,0,660708321);
(0,62797004559,0,661407759);
(1,62797691769,0,662094969)]).
Definition file_1991 : file := (true, ""%string, [
(3,62798870212,0,663273412);
(0,62799580240,0,663983440);
(1,62800237308,0,664640508);
(2,62800812632,0,665215832);
(3,62801445266,0,665848466);
(0,62802149604,0,666552804);
(1,62802773914,0,667177114);
(2,62803362306,0,667765506);
(3,62804025289,0,668428489);
(0,62804707969,0,669111169);
(1,62805305008,0,669708208);
(2,62805914269,0,670317469);
(3,62806603675,3600,671006875);
(0,62807254772,3600,671657972);
(1,62807834374,3600,672237574);
(2,62808469134,3600,672872334);
(3,62809174091,3600,673577291);
(0,62809792633,3600,674195833);
(1,62810365598,3600,674768798);
(2,62811027425,3600,675430625);
(3,62811732688,3600,676135888);
(0,62812325226,3600,676728426);
(1,62812902002,3600,677305202);
(2,62813588348,3600,677991548);
(3,62814279076,3600,678682276);
(0,62814856013,3600,679259213);
(1,62815446667,3600,679849867);
(2,62816149519,3600,680552719);
(3,62816815578,3600,681218778);
(0,62817388089,3600,681791289);
(1,62818002052,3600,682405252);
(2,62818708104,3600,683111304);
(3,62819345834,3600,683749034);
(0,62819924459,3600,684327659);
(1,62820568870,3600,684972070);
(2,62821262482,3600,685665682);
(3,62821873839,3600,686277039);
(0,62822468306,3600,686871506);
(1,62823144734,3600,687547934);
(2,62823812976,3600,688216176);
(3,62824403527,0,688806727);
(0,62825022644,0,689425844);
(1,62825724052,0,690127252);
(2,62826361065,0,690764265);
(3,62826938582,0,691341782);
(0,62827588618,0,691991818);
(1,62828299919,0,692703119);
(2,62828907858,0,693311058);
(3,62829482209,0,693885409)]).
Definition file_1992 : file := (true, ""%string, [
(0,62830163432,0,694566632);
(1,62830866741,0,695269941);
(2,62831453336,0,695856536);
(3,62832036524,0,696439724);
(0,62832740431,0,697143631);
(1,62833421681,0,697824881);
(2,62833997052,0,698400252);
(3,62834601442,0,699004642);
(0,62835312219,0,699715419);
(1,62835964547,0,700367747);
(2,62836539472,0,700942672);
(3,62837173873,0,701577073);
(0,62837874195,3600,702277395);
(1,62838497184,3600,702900384);
(2,62839082556,3600,703485756);
(3,62839748446,3600,704151646);
(0,62840425553,3600,704828753);
(1,62841023068,3600,705426268);
(2,62841628975,3600,706032175);
(3,62842319681,3600,706722881);
(0,62842967866,3600,707371066);
(1,62843546885,3600,707950085);
(2,62844180635,3600,708583835);
(3,62844883985,3600,709287185);
(0,62845503544,3600,709906744);
(1,62846073890,3600,710477090);
(2,62846737661,3600,711140861);
(3,62847440082,3600,711843282);
(0,62848035365,3600,712438565);
(1,62848609171,3600,713012371);
(2,62849298536,3600,713701736);
(3,62849988204,3600,714391404);
(0,62850566563,3600,714969763);
(1,62851156733,3600,715559933);
(2,62851861109,3600,716264309);
(3,62852529273,3600,716932473);
(0,62853100844,3600,717504044);
(1,62853718275,3600,718121475);
(2,62854423487,3600,718826687);
(3,62855064798,3600,719467998);
(0,62855642044,0,720045244);
(1,62856292215,0,720695415);
(2,62856984103,0,721387303);
(3,62857597220,0,722000420);
(0,62858193115,0,722596315);
(1,62858873810,0,723277010);
(2,62859541317,0,723944517);
(3,62860130070,0,724533270);
(0,62860754640,0,725157840)]).
Definition file_1993 : file := (true, ""%string, [
(1,62861456364,0,725859564);
(2,62862093490,0,726496690);
(3,62862667374,0,727070574);
(0,62863324090,0,727727290);
(1,62864032870,0,728436070);
(2,62864639770,0,729042970);
(3,62865212298,0,729615498);
(0,62865896783,0,730299983);
(1,62866597648,0,731000848);
(2,62867180796,0,731583996);
(3,62867765859,0,732169059);
(0,62868467748,0,732870948);
(1,62869147818,3600,733551018);
(2,62869718632,3600,734121832);
(3,62870326758,3600,734729958);
(0,62871033022,3600,735436222);
(1,62871684058,3600,736087258);
(2,62872256047,3600,736659247);
(3,62872892434,3600,737295634);
(0,62873590066,3600,737993266);
(1,62874210112,3600,738613312);
(2,62874795747,3600,739198947);
(3,62875460253,3600,739863453);
(0,62876138002,3600,740541202);
(1,62876731441,3600,741134641);
(2,62877339931,3600,741743131);
(3,62878027872,3600,742431072);
(0,62878677875,3600,743081075);
(1,62879253950,3600,743657150);
(2,62879890212,3600,744293412);
(3,62880592910,3600,744996110);
(0,62881212518,3600,745615718);
(1,62881783088,3600,746186288);
(2,62882447613,3600,746850813);
(3,62883152873,3600,747556073);
(0,62883745832,3600,748149032);
(1,62884323147,3600,748726347);
(2,62885012083,3600,749415283);
(3,62885705759,3600,750108959);
(0,62886281767,3600,750684967);
(1,62886876696,3600,751279896);
(2,62887581524,0,751984724);
(3,62888250967,0,752654167);
(0,62888823282,0,753226482);
(1,62889444160,0,753847360);
(2,62890151505,0,754554705);
(3,62890789751,0,755192951);
(0,62891371662,0,755774862);
(1,62892023190,0,756426390);
(2,62892716793,0,757119993)]).
Definition file_1994 : file := (true, ""%string, [
(3,62893324877,0,757728077);
(0,62893926702,0,758329902);
(1,62894608070,0,759011270);
(2,62895273866,0,759677066);
(3,62895859644,0,760262844);
(0,62896487500,0,760890700);
(1,62897190511,0,761593711);
(2,62897822205,0,762225405);
(3,62898396892,0,762800092);
(0,62899052793,0,763455993);
(1,62899762531,0,764165731);
(2,62900363467,3600,764766667);
(3,62900938579,3600,765341779);
(0,62901620333,3600,766023533);
(1,62902319700,3600,766722900);
(2,62902899960,3600,767303160);
(3,62903486027,3600,767889227);
(0,62904186483,3600,768589683);
(1,62904862197,3600,769265397);
(2,62905433973,3600,769837173);
(3,62906040230,3600,770443430);
(0,62906747256,3600,771150456);
(1,62907393394,3600,771796594);
(2,62907967976,3600,772371176);
(3,62908601553,3600,773004753);
(0,62909300280,3600,773703480);
(1,62909917933,3600,774321133);
(2,62910504946,3600,774908146);
(3,62911168902,3600,775572102);
(0,62911845921,3600,776249121);
(1,62912440709,3600,776843909);
(2,62913048391,3600,777451591);
(3,62913739308,3600,778142508);
(0,62914386765,3600,778789965);
(1,62914966538,3600,779369738);
(2,62915601621,3600,780004821);
(3,62916308651,3600,780711851);
(0,62916926110,3600,781329310);
(1,62917499940,3600,781903140);
(2,62918165919,3600,782569119);
(3,62918873120,0,783276320);
(0,62919466539,0,783869739);
(1,62920044890,0,784448090);
(2,62920738707,0,785141907);
(3,62921430285,0,785833485);
(0,62922009274,0,786412474);
(1,62922604003,0,787007203);
(2,62923313903,0,787717103);
(3,62923979238,0,788382438)]).
Definition file_1995 : file := (true, ""%string, [
(0,62924554610,0,788957810);
(1,62925176809,0,789580009);
(2,62925884875,0,790288075);
(3,62926520328,0,790923528);
(0,62927102974,0,791506174);
(1,62927758436,0,792161636);
(2,62928447433,0,792850633);
(3,62929055087,0,793458287);
(0,62929655397,0,794058597);
(1,62930340801,0,794744001);
(2,62931000447,0,795403647);
(3,62931586268,0,795989468);
(0,62932212647,3600,796615847);
(1,62932916113,3600,797319313);
(2,62933544584,3600,797947784);
(3,62934117567,3600,798520767);
(0,62934773890,3600,799177090);
(1,62935479859,3600,799883059);
(2,62936081335,3600,800484535);
(3,62936652999,3600,801056199);
(0,62937336509,3600,801739709);
(1,62938031161,3600,802434361);
(2,62938613018,3600,803016218);
(3,62939196091,3600,803599291);
(0,62939897448,3600,804300648);
(1,62940571385,3600,804974585);
(2,62941142965,3600,805546165);
(3,62941749011,3600,806152211);
(0,62942454795,3600,806857995);
(1,62943103027,3600,807506227);
(2,62943675337,3600,808078537);
(3,62944311866,3600,808715066);
(0,62945008256,3600,809411456);
(1,62945629479,3600,810032679);
(2,62946214587,3600,810617787);
(3,62946882615,3600,811285815);
(0,62947558474,3600,811961674);
(1,62948155045,3600,812558245);
(2,62948764320,3600,813167520);
(3,62949457664,3600,813860864);
(0,62950106161,0,814509361);
(1,62950684709,0,815087909);
(2,62951325691,0,815728891);
(3,62952032551,0,816435751);
(0,62952651769,0,817054969);
(1,62953223384,0,817626584);
(2,62953896496,0,818299696);
(3,62954602414,0,819005614);
(0,62955195783,0,819598983);
(1,62955774430,0,820177630)]).
Definition file_1996 : file := (true, ""%string, [
(2,62956471923,0,820875123);
(3,62957162794,0,821565994);
(0,62957739117,0,822142317);
(1,62958338006,0,822741206);
(2,62959046321,0,823449521);
(3,62959711080,0,824114280);
(0,62960283141,0,824686341);
(1,62960910704,0,825313904);
(2,62961614650,0,826017850);
(3,62962247737,0,826650937);
(0,62962829236,0,827232436);
(1,62963487058,0,827890258);
(2,62964173343,3600,828576543);
(3,62964776189,3600,829179389);
(0,62965378278,3600,829781478);
(1,62966061690,3600,830464890);
(2,62966721028,3600,831124228);
(3,62967301477,3600,831704677);
(0,62967930514,3600,832333714);
(1,62968630483,3600,833033683);
(2,62969258928,3600,833662128);
(3,62969828797,3600,834231997);
(0,62970485868,3600,834889068);
(1,62971190703,3600,835593903);
(2,62971790393,3600,836193593);
(3,62972362566,3600,836765766);
(0,62973044172,3600,837447372);
(1,62973741029,3600,838144229);
(2,62974319808,3600,838723008);
(3,62974905971,3600,839309171);
(0,62975604870,3600,840008070);
(1,62976281859,3600,840685059);
(2,62976851594,3600,841254794);
(3,62977460839,3600,841864039);
(0,62978166446,3600,842569646);
(1,62978815419,3600,843218619);
(2,62979389469,3600,843792669);
(3,62980027542,3600,844430742);
(0,62980726450,3600,845129650);
(1,62981345395,3600,845748595);
(2,62981935878,3600,846339078);
(3,62982604353,0,847007553);
(0,62983282544,0,847685744);
(1,62983876190,0,848279390);
(2,62984491804,0,848895004);
(3,62985186483,0,849589683);
(0,62985833767,0,850236967);
(1,62986411915,0,850815115);
(2,62987056876,0,851460076)]).
Definition file_1997 : file := (true, ""%string, [
(3,62987766407,0,852169607);
(0,62988380769,0,852783969);
(1,62988955357,0,853358557);
(2,62989629061,0,854032261);
(3,62990336488,0,854739688);
(0,62990924848,0,855328048);
(1,62991507463,0,855910663);
(2,62992204017,0,856607217);
(3,62992892295,0,857295495);
(0,62993466981,0,857870181);
(1,62994067600,0,858470800);
(2,62994775577,0,859178777);
(3,62995433907,3600,859837107);
(0,62996007837,3600,860411037);
(1,62996634064,3600,861037264);
(2,62997338149,3600,861741349);
(3,62997964649,3600,862367849);
(0,62998548532,3600,862951732);
(1,62999204198,3600,863607398);
(2,62999889373,3600,864292573);
(3,63000489149,3600,864892349);
(0,63001091160,3600,865494360);
(1,63001774384,3600,866177584);
(2,63002430695,3600,866833895);
(3,63003012249,3600,867415449);
(0,63003638514,3600,868041714);
(1,63004340705,3600,868743905);
(2,63004965793,3600,869368993);
(3,63005538655,3600,869941855);
(0,63006192938,3600,870596138);
(1,63006900232,3600,871303432);
(2,63007498686,3600,871901886);
(3,63008072789,3600,872475989);
(0,63008754779,3600,873157979);
(1,63009451945,3600,873855145);
(2,63010032733,3600,874435933);
(3,63010618646,3600,875021846);
(0,63011321553,3600,875724753);
(1,63011996588,3600,876399788);
(2,63012570402,3600,876973602);
(3,63013179012,3600,877582212);
(0,63013888909,0,878292109);
(1,63014535868,0,878939068);
(2,63015113546,0,879516746);
(3,63015753603,0,880156803);
(0,63016452886,0,880856086);
(1,63017071836,0,881475036);
(2,63017663872,0,882067072);
(3,63018337485,0,882740685);
(0,63019011450,0,883414650)]).
Definition file_1998 : file := (true, ""%string, [
(1,63019606783,0,884009983);
(2,63020222681,0,884625881);
(3,63020922107,0,885325307);
(0,63021564129,0,885967329);
(1,63022143313,0,886546513);
(2,63022789420,0,887192620);
(3,63023498937,0,887902137);
(0,63024110851,0,888514051);
(1,63024684153,0,889087353);
(2,63025360497,0,889763697);
(3,63026062777,0,890465977);
(0,63026651713,0,891054913);
(1,63027231581,3600,891634781);
(2,63027930270,3600,892333470);
(3,63028612414,3600,893015614);
(0,63029187771,3600,893590971);
(1,63029786662,3600,894189862);
(2,63030493851,3600,894897051);
(3,63031149370,3600,895552570);
(0,63031721625,3600,896124825);
(1,63032348693,3600,896751893);
(2,63033049197,3600,897452397);
(3,63033676766,3600,898079966);
(0,63034257107,3600,898660307);
(1,63034915339,3600,899318539);
(2,63035596967,3600,900000167);
(3,63036198918,3600,900602118);
(0,63036798301,3600,901201501);
(1,63037483525,3600,901886725);
(2,63038139107,3600,902542307);
(3,63038721048,3600,903124248);
(0,63039348249,3600,903751449);
(1,63040050458,3600,904453658);
(2,63040677799,3600,905080999);
(3,63041248815,3600,905652015);
(0,63041907757,3600,906310957);
(1,63042613945,3600,907017145);
(2,63043215209,3600,907618409);
(3,63043787571,3600,908190771);
(0,63044475040,3600,908878240);
(1,63045172057,0,909575257);
(2,63045753583,0,910156783);
(3,63046340985,0,910744185);
(0,63047046489,0,911449689);
(1,63047723030,0,912126230);
(2,63048295251,0,912698451);
(3,63048909300,0,913312500);
(0,63049617834,0,914021034);
(1,63050266040,0,914669240)]).
Definition file_1999 : file := (true, ""%string, [
(2,63050842283,0,915245483);
(3,63051488594,0,915891794);
(0,63052184873,0,916588073);
(1,63052802207,0,917205407);
(2,63053395695,0,917798895);
(3,63054072028,0,918475228);
(0,63054744052,0,919147252);
(1,63055334680,0,919737880);
(2,63055954791,0,920357991);
(3,63056652225,0,921055425);
(0,63057293413,0,921696613);
(1,63057867572,0,922270772);
(2,63058517399,3600,922920599);
(3,63059223221,3600,923626421);
(0,63059833418,3600,924236618);
(1,63060404558,3600,924807758);
(2,63061080929,3600,925484129);
(3,63061781440,3600,926184640);
(0,63062366788,3600,926769988);
(1,63062948053,3600,927351253);
(2,63063643242,3600,928046442);
(3,63064326085,3600,928729285);
(0,63064897455,3600,929300655);
(1,63065499155,3600,929902355);
(2,63066202712,3600,930605912);
(3,63066859082,3600,931262282);
(0,63067429518,3600,931832718);
(1,63068058019,3600,932461219);
(2,63068757982,3600,933161182);
(3,63069384480,3600,933787680);
(0,63069966582,3600,934369782);
(1,63070624076,3600,935027276);
(2,63071308188,3600,935711388);
(3,63071907540,3600,936310740);
(0,63072511399,3600,936914599);
(1,63073195652,3600,937598852);
(2,63073853589,3600,938256789);
(3,63074433844,3600,938837044);
(0,63075065719,3600,939468919);
(1,63075769280,3600,940172480);
(2,63076395866,3600,940799066);
(3,63076968360,0,941371560);
(0,63077630048,0,942033248);
(1,63078339844,0,942743044);
(2,63078937541,0,943340741);
(3,63079514442,0,943917642);
(0,63080202783,0,944605983);
(1,63080902256,0,945305456);
(2,63081480787,0,945883987);
(3,63082073158,0,946476358)]).
Definition file_2000 : file := (true, ""%string, [
(0,63082779297,0,947182497);
(1,63083453680,0,947856880);
(2,63084026505,0,948429705);
(3,63084643122,0,949046322);
(0,63085352692,0,949755892);
(1,63085994508,0,950397708);
(2,63086574455,0,950977655);
(3,63087220591,0,951623791);
(0,63087916753,0,952319953);
(1,63088527575,0,952930775);
(2,63089124310,0,953527510);
(3,63089799835,3600,954203035);
(0,63090468873,3600,954872073);
(1,63091056691,3600,955459891);
(2,63091676538,3600,956079738);
(3,63092374364,3600,956777564);
(0,63093010438,3600,957413638);
(1,63093585706,3600,957988906);
(2,63094232120,3600,958635320);
(3,63094939030,3600,959342230);
(0,63095544938,3600,959948138);
(1,63096118232,3600,960521432);
(2,63096791297,3600,961194497);
(3,63097491712,3600,961894912);
(0,63098076091,3600,962479291);
(1,63098657648,3600,963060848);
(2,63099352614,3600,963755814);
(3,63100033422,3600,964436622);
(0,63100607193,3600,965010393);
(1,63101206974,3600,965610174);
(2,63101913287,3600,966316487);
(3,63102567146,3600,966970346);
(0,63103141240,3600,967544440);
(1,63103768116,3600,968171316);
(2,63104470760,3600,968873960);
(3,63105096622,3600,969499822);
(0,63105681245,3600,970084445);
(1,63106340412,3600,970743612);
(2,63107024133,3600,971427333);
(3,63107625690,3600,972028890);
(0,63108230332,3600,972633532);
(1,63108919641,0,973322841);
(2,63109574227,0,973977427);
(3,63110158039,0,974561239);
(0,63110790764,0,975193964);
(1,63111498962,0,975902162);
(2,63112122302,0,976525502);
(3,63112697048,0,977100248);
(0,63113361817,0,977765017)]).
Definition file_2001 : file := (true, ""%string, [
(1,63114071562,0,978474762);
(2,63114668760,0,979071960);
(3,63115245431,0,979648631);
(0,63115938520,0,980341720);
(1,63116633004,0,981036204);
(2,63117213166,0,981616366);
(3,63117804376,0,982207576);
(0,63118513401,0,982916601);
(1,63119181839,0,983585039);
(2,63119755451,0,984158651);
(3,63120372480,0,984775680);
(0,63121080239,3600,985483439);
(1,63121719029,3600,986122229);
(2,63122296989,3600,986700189);
(3,63122945609,3600,987348809);
(0,63123636503,3600,988039703);
(1,63124247361,3600,988650561);
(2,63124840433,3600,989243633);
(3,63125518360,3600,989921560);
(0,63126182890,3600,990586090);
(1,63126771068,3600,991174268);
(2,63127388447,3600,991791647);
(3,63128086234,3600,992489434);
(0,63128721563,3600,993124763);
(1,63129295289,3600,993698489);
(2,63129942323,3600,994345523);
(3,63130646863,3600,995050063);
(0,63131255134,3600,995658334);
(1,63131825381,3600,996228581);
(2,63132501449,3600,996904649);
(3,63133199733,3600,997602933);
(0,63133786569,3600,998189769);
(1,63134366134,3600,998769334);
(2,63135063892,3600,999467092);
(3,63135745286,3600,1000148486);
(0,63136319290,3600,1000722490);
(1,63136920652,3600,1001323852);
(2,63137627447,3600,1002030647);
(3,63138284470,3600,1002687670);
(0,63138857046,3600,1003260246);
(1,63139489076,3600,1003892276);
(2,63140190189,0,1004593389);
(3,63140818975,0,1005222175);
(0,63141403269,0,1005806469);
(1,63142068045,0,1006471245);
(2,63142750271,0,1007153471);
(3,63143351624,0,1007754824);
(0,63143959759,0,1008362959);
(1,63144651466,0,1009054666);
(2,63145305747,0,1009708947)]).
Definition file_2002 : file := (true, ""%string, [
(3,63145886225,0,1010289425);
(0,63146525456,0,1010928656);
(1,63147232125,0,1011635325);
(2,63147855132,0,1012258332);
(3,63148426535,0,1012829735);
(0,63149096595,0,1013499795);
(1,63149803428,0,1014206628);
(2,63150398299,0,1014801499);
(3,63150974817,0,1015378017);
(0,63151668295,0,1016071495);
(1,63152360991,0,1016764191);
(2,63152936788,0,1017339988);
(3,63153531058,3600,1017934258);
(0,63154236208,3600,1018639408);
(1,63154903780,3600,1019306980);
(2,63155473277,3600,1019876477);
(3,63156093459,3600,1020496659);
(0,63156797229,3600,1021200429);
(1,63157434192,3600,1021837392);
(2,63158010738,3600,1022413938);
(3,63158659628,3600,1023062828);
(0,63159349686,3600,1023752886);
(1,63159957025,3600,1024360225);
(2,63160551795,3600,1024954995);
(3,63161227319,3600,1025630519);
(0,63161893620,3600,1026296820);
(1,63162478099,3600,1026881299);
(2,63163098474,3600,1027501674);
(3,63163794296,3600,1028197496);
(0,63164430945,3600,1028834145);
(1,63165003212,3600,1029406412);
(2,63165652206,3600,1030055406);
(3,63166358006,3600,1030761206);
(0,63166965049,3600,1031368249);
(1,63167537354,3600,1031940554);
(2,63168213624,3600,1032616824);
(3,63168915855,3600,1033319055);
(0,63169499897,3600,1033903097);
(1,63170084030,3600,1034487230);
(2,63170781710,3600,1035184910);
(3,63171466127,0,1035869327);
(0,63172038939,0,1036442139);
(1,63172644757,0,1037047957);
(2,63173352948,0,1037756148);
(3,63174008852,0,1038412052);
(0,63174584172,0,1038987372);
(1,63175218583,0,1039621783);
(2,63175921939,0,1040325139);
(3,63176545945,0,1040949145)]).
Definition file_2003 : file := (true, ""%string, [
(0,63177135908,0,1041539108);
(1,63177801409,0,1042204609);
(2,63178483795,0,1042886995);
(3,63179080492,0,1043483692);
(0,63179693448,0,1044096648);
(1,63180385978,0,1044789178);
(2,63181036398,0,1045439598);
(3,63181615665,0,1046018865);
(0,63182255832,0,1046659032);
(1,63182963792,0,1047366992);
(2,63183580577,0,1047983777);
(3,63184153969,0,1048557169);
(0,63184821634,3600,1049224834);
(1,63185528463,3600,1049931663);
(2,63186118618,3600,1050521818);
(3,63186697187,3600,1051100387);
(0,63187388175,3600,1051791375);
(1,63188078003,3600,1052481203);
(2,63188652991,3600,1053056191);
(3,63189246721,3600,1053649921);
(0,63189951662,3600,1054354862);
(1,63190614454,3600,1055017654);
(2,63191186159,3600,1055589359);
(3,63191803598,3600,1056206798);
(0,63192508773,3600,1056911973);
(1,63193141969,3600,1057545169);
(2,63193720893,3600,1058124093);
(3,63194367792,3600,1058770992);
(0,63195058391,3600,1059461591);
(1,63195665324,3600,1060068524);
(2,63196260498,3600,1060663698);
(3,63196937391,3600,1061340591);
(0,63197601991,3600,1062005191);
(1,63198189353,3600,1062592553);
(2,63198808572,3600,1063211772);
(3,63199508643,3600,1063911843);
(0,63200142567,3600,1064545767);
(1,63200718697,3600,1065121897);
(2,63201367699,3600,1065770899);
(3,63202077158,3600,1066480358);
(0,63202683056,3600,1067086256);
(1,63203257601,0,1067660801);
(2,63203937323,0,1068340523);
(3,63204639403,0,1069042603);
(0,63205225204,0,1069628404);
(1,63205809454,0,1070212654);
(2,63206512737,0,1070915937);
(3,63207193441,0,1071596641);
(0,63207769494,0,1072172694);
(1,63208375494,0,1072778694)]).
Definition file_2004 : file := (true, ""%string, [
(2,63209086953,0,1073490153);
(3,63209738841,0,1074142041);
(0,63210316057,0,1074719257);
(1,63210953074,0,1075356274);
(2,63211654179,0,1076057379);
(3,63212276485,0,1076679685);
(0,63212865652,0,1077268852);
(1,63213535485,0,1077938685);
(2,63214211823,0,1078615023);
(3,63214808569,0,1079211769);
(0,63215419473,0,1079822673);
(1,63216114525,3600,1080517725);
(2,63216759918,3600,1081163118);
(3,63217338494,3600,1081741694);
(0,63217977849,3600,1082381049);
(1,63218684022,3600,1083087222);
(2,63219299730,3600,1083702930);
(3,63219870366,3600,1084273566);
(0,63220539270,3600,1084942470);
(1,63221241495,3600,1085644695);
(2,63221833257,3600,1086236457);
(3,63222408251,3600,1086811451);
(0,63223100931,3600,1087504131);
(1,63223787360,3600,1088190560);
(2,63224363398,3600,1088766598);
(3,63224955313,3600,1089358513);
(0,63225660307,3600,1090063507);
(1,63226323529,3600,1090726729);
(2,63226893965,3600,1091297165);
(3,63227512951,3600,1091916151);
(0,63228216264,3600,1092619464);
(1,63228852809,3600,1093256009);
(2,63229429352,3600,1093832552);
(3,63230080283,3600,1094483483);
(0,63230768933,3600,1095172133);
(1,63231378914,3600,1095782114);
(2,63231973743,3600,1096376943);
(3,63232654368,3600,1097057568);
(0,63233318861,3600,1097722061);
(1,63233906416,3600,1098309616);
(2,63234529653,3600,1098932853);
(3,63235230910,0,1099634110);
(0,63235866394,0,1100269594);
(1,63236440299,0,1100843499);
(2,63237096483,0,1101499683);
(3,63237804895,0,1102208095);
(0,63238411739,0,1102814939);
(1,63238984832,0,1103388032);
(2,63239670436,0,1104073636)]).
Definition file_2005 : file := (true, ""%string, [
(3,63240371249,0,1104774449);
(0,63240955433,0,1105358633);
(1,63241541873,0,1105945073);
(2,63242246006,0,1106649206);
(3,63242926093,0,1107329293);
(0,63243498619,0,1107901819);
(1,63244109759,0,1108512959);
(2,63244817722,0,1109220922);
(3,63245468268,0,1109871468);
(0,63246042809,0,1110446009);
(1,63246683965,0,1111087165);
(2,63247381260,0,1111784460);
(3,63247999909,3600,1112403109);
(0,63248589323,3600,1112992523);
(1,63249259133,3600,1113662333);
(2,63249934167,3600,1114337367);
(3,63250525542,3600,1114928742);
(0,63251138923,3600,1115542123);
(1,63251830726,3600,1116233926);
(2,63252476456,3600,1116879656);
(3,63253050542,3600,1117453742);
(0,63253691883,3600,1118095083);
(1,63254395479,3600,1118798679);
(2,63255010577,3600,1119413777);
(3,63255579923,3600,1119983123);
(0,63256248286,3600,1120651486);
(1,63256951323,3600,1121354523);
(2,63257540554,3600,1121943754);
(3,63258117661,3600,1122520861);
(0,63258807968,3600,1123211168);
(1,63259497615,3600,1123900815);
(2,63260070889,3600,1124474089);
(3,63260666393,3600,1125069593);
(0,63261369959,3600,1125773159);
(1,63262035467,3600,1126438667);
(2,63262605698,3600,1127008898);
(3,63263227331,3600,1127630531);
(0,63263932064,3600,1128335264);
(1,63264567693,3600,1128970893);
(2,63265148027,3600,1129551227);
(3,63265799905,3600,1130203105);
(0,63266491440,0,1130894640);
(1,63267098263,0,1131501463);
(2,63267699449,0,1132102649);
(3,63268380807,0,1132784007);
(0,63269046023,0,1133449223);
(1,63269631427,0,1134034627);
(2,63270260136,0,1134663336);
(3,63270963481,0,1135366681)]).
Definition file_2006 : file := (true, ""%string, [
(1,63272170646,0,1136573846);
(2,63272828908,0,1137232108);
(3,63273539720,0,1137942920);
(0,63274140942,0,1138544142);
(1,63274717776,0,1139120976);
(2,63275402688,0,1139805888);
(3,63276103087,0,1140506287);
(0,63276683566,0,1141086766);
(1,63277272995,0,1141676195);
(2,63277976185,0,1142379385);
(3,63278651476,0,1143054676);
(0,63279224255,3600,1143627455);
(1,63279835311,3600,1144238511);
(2,63280543323,3600,1144946523);
(3,63281186924,3600,1145590124);
(0,63281763971,3600,1146167171);
(1,63282402866,3600,1146806066);
(2,63283100014,3600,1147503214);
(3,63283713671,3600,1148116871);
(0,63284304466,3600,1148707666);
(1,63284972812,3600,1149376012);
(2,63285645924,3600,1150049124);
(3,63286236571,3600,1150639771);
(0,63286848418,3600,1151251618);
(1,63287541445,3600,1151944645);
(2,63288183845,3600,1152587045);
(3,63288760471,3600,1153163671);
(0,63289398721,3600,1153801921);
(1,63290105185,3600,1154508385);
(2,63290717775,3600,1155120975);
(3,63291290002,3600,1155693202);
(0,63291957037,3600,1156360237);
(1,63292661834,3600,1157065034);
(2,63293251430,3600,1157654630);
(3,63293829460,3600,1158232660);
(0,63294522347,3600,1158925547);
(1,63295211073,3600,1159614273);
(2,63295787630,3600,1160190830);
(3,63296382434,3600,1160785634);
(0,63297090873,3600,1161494073);
(1,63297753962,0,1162157162);
(2,63298328335,0,1162731535);
(3,63298950419,0,1163353619);
(0,63299657902,0,1164061102);
(1,63300292184,0,1164695384);
(2,63300875118,0,1165278318);
(3,63301530783,0,1165933983);
(0,63302220071,0,1166623271);
(1,63302827728,0,1167230928)]).
Definition file_2007 : file := (true, ""%string, [
(2,63303429468,0,1167832668);
(3,63304116331,0,1168519531);
(0,63304776081,0,1169179281);
(1,63305362966,0,1169766166);
(2,63305991951,0,1170395151);
(3,63306697949,0,1171101149);
(0,63307325726,0,1171728926);
(1,63307900636,0,1172303836);
(2,63308560660,0,1172963860);
(3,63309268553,0,1173671753);
(0,63309869043,0,1174272243);
(1,63310443451,3600,1174846651);
(2,63311130945,3600,1175534145);
(3,63311825121,3600,1176228321);
(0,63312406652,3600,1176809852);
(1,63312993391,3600,1177396591);
(2,63313697443,3600,1178100643);
(3,63314368071,3600,1178771271);
(0,63314940524,3600,1179343724);
(1,63315550967,3600,1179954167);
(2,63316256715,3600,1180659915);
(3,63316899829,3600,1181303029);
(0,63317474081,3600,1181877281);
(1,63318114895,3600,1182518095);
(2,63318808225,3600,1183211425);
(3,63319424118,3600,1183827318);
(0,63320011506,3600,1184414706);
(1,63320682536,3600,1185085736);
(2,63321353387,3600,1185756587);
(3,63321945714,3600,1186348914);
(0,63322556615,3600,1186959815);
(1,63323250897,3600,1187654097);
(2,63323894238,3600,1188297438);
(3,63324470101,3600,1188873301);
(0,63325111525,3600,1189514725);
(1,63325817367,3600,1190220567);
(2,63326432824,3600,1190836024);
(3,63327002895,3600,1191406095);
(0,63327675723,3600,1192078923);
(1,63328379674,3600,1192782874);
(2,63328971187,3600,1193374387);
(3,63329548803,0,1193952003);
(0,63330246258,0,1194649458);
(1,63330935615,0,1195338815);
(2,63331511467,0,1195914667);
(3,63332109909,0,1196513109);
(0,63332818871,0,1197222071);
(1,63333483477,0,1197886677);
(2,63334055790,0,1198458990)]).
Definition file_2008 : file := (true, ""%string, [
(0,63335389054,0,1199792254);
(1,63336023157,0,1200426357);
(2,63336605707,0,1201008907);
(3,63337266200,0,1201669400);
(0,63337952701,0,1202355901);
(1,63338556830,0,1202960030);
(2,63339161431,0,1203564631);
(3,63339848391,0,1204251591);
(0,63340506911,0,1204910111);
(1,63341088367,0,1205491567);
(2,63341721591,0,1206124791);
(3,63342424166,0,1206827366);
(0,63343050986,3600,1207454186);
(1,63343621936,3600,1208025136);
(2,63344283933,3600,1208687133);
(3,63344988846,3600,1209392046);
(0,63345586760,3600,1209989960);
(1,63346160828,3600,1210564028);
(2,63346846315,3600,1211249515);
(3,63347540293,3600,1211943493);
(0,63348117831,3600,1212521031);
(1,63348707009,3600,1213110209);
(2,63349407085,3600,1213810285);
(3,63350079076,3600,1214482276);
(0,63350648401,3600,1215051601);
(1,63351261292,3600,1215664492);
(2,63351964829,3600,1216368029);
(3,63352608182,3600,1217011382);
(0,63353182431,3600,1217585631);
(1,63353823652,3600,1218226852);
(2,63354518297,3600,1218921497);
(3,63355132268,3600,1219535468);
(0,63355723146,3600,1220126346);
(1,63356393131,3600,1220796331);
(2,63357066923,3600,1221470123);
(3,63357656772,3600,1222059972);
(0,63358272788,3600,1222675988);
(1,63358967154,3600,1223370354);
(2,63359611468,3600,1224014668);
(3,63360187013,3600,1224590213);
(0,63360832489,0,1225235689);
(1,63361541076,0,1225944276);
(2,63362153960,0,1226557160);
(3,63362727183,0,1227130383);
(0,63363401753,0,1227804953);
(1,63364109179,0,1228512379);
(2,63364696739,0,1229099939);
(3,63365279458,0,1229682658);
(0,63365977414,0,1230380614)]).
Definition file_2009 : file := (true, ""%string, [
(1,63366666993,0,1231070193);
(2,63367241279,0,1231644479);
(3,63367843622,0,1232246822);
(0,63368553368,0,1232956568);
(1,63369213178,0,1233616378);
(2,63369787777,0,1234190977);
(3,63370417143,0,1234820343);
(0,63371122592,0,1235525792);
(1,63371749540,0,1236152740);
(2,63372335872,0,1236739072);
(3,63372995391,0,1237398591);
(0,63373680481,0,1238083681);
(1,63374279642,3600,1238682842);
(2,63374885759,3600,1239288959);
(3,63375572320,3600,1239975520);
(0,63376226654,3600,1240629854);
(1,63376807496,3600,1241210696);
(2,63377438504,3600,1241841704);
(3,63378142074,3600,1242545274);
(0,63378763936,3600,1243167136);
(1,63379336987,3600,1243740187);
(2,63379995142,3600,1244398342);
(3,63380700970,3600,1245104170);
(0,63381296171,3600,1245699371);
(1,63381871766,3600,1246274966);
(2,63382555342,3600,1246958542);
(3,63383248463,3600,1247651663);
(0,63383826928,3600,1248230128);
(1,63384415229,3600,1248818429);
(2,63385116960,3600,1249520160);
(3,63385786568,3600,1250189768);
(0,63386359323,3600,1250762523);
(1,63386970129,3600,1251373329);
(2,63387677034,3600,1252080234);
(3,63388318596,3600,1252721796);
(0,63388896270,3600,1253299470);
(1,63389537372,3600,1253940572);
(2,63390233496,3600,1254636696);
(3,63390848216,3600,1255251416);
(0,63391440777,3600,1255843977);
(1,63392114505,0,1256517705);
(2,63392786129,0,1257189329);
(3,63393379053,0,1257782253);
(0,63393995640,0,1258398840);
(1,63394695535,0,1259098735);
(2,63395335933,0,1259739133);
(3,63395914538,0,1260317738);
(0,63396561808,0,1260965008);
(1,63397272994,0,1261676194)]).
Definition file_2010 : file := (true, ""%string, [
(3,63398457711,0,1262860911);
(0,63399136384,0,1263539584);
(1,63399840863,0,1264244063);
(2,63400429118,0,1264832318);
(3,63401010647,0,1265413847);
(0,63401712780,0,1266115980);
(1,63402396173,0,1266799373);
(2,63402971912,0,1267375112);
(3,63403573448,0,1267976648);
(0,63404283797,0,1268686997);
(1,63404938823,0,1269342023);
(2,63405512756,3600,1269915956);
(3,63406143515,3600,1270546715);
(0,63406845063,3600,1271248263);
(1,63407470827,3600,1271874027);
(2,63408053930,3600,1272457130);
(3,63408716158,3600,1273119358);
(0,63409395948,3600,1273799148);
(1,63409995822,3600,1274399022);
(2,63410598460,3600,1275001660);
(3,63411286454,3600,1275689654);
(0,63411938130,3600,1276341330);
(1,63412518646,3600,1276921846);
(2,63413148660,3600,1277551860);
(3,63413851017,3600,1278254217);
(0,63414474066,3600,1278877266);
(1,63415044708,3600,1279447908);
(2,63415705055,3600,1280108255);
(3,63416408438,3600,1280811638);
(0,63417006514,3600,1281409714);
(1,63417579284,3600,1281982484);
(2,63418266353,3600,1282669553);
(3,63418958610,3600,1283361810);
(0,63419538612,3600,1283941812);
(1,63420126577,3600,1284529777);
(2,63420830321,3600,1285233521);
(3,63421502001,3600,1285905201);
(0,63422073892,3600,1286477092);
(1,63422688397,3600,1287091597);
(2,63423394691,3600,1287797891);
(3,63424039619,3600,1288442819);
(0,63424615943,0,1289019143);
(1,63425263067,0,1289666267);
(2,63425957350,0,1290360550);
(3,63426573474,0,1290976674);
(0,63427167420,0,1291570620);
(1,63427845543,0,1292248743);
(2,63428516113,0,1292919313);
(3,63429106820,0,1293510020)]).
Definition file_2011 : file := (true, ""%string, [
(0,63429728673,0,1294131873);
(1,63430428786,0,1294831986);
(2,63431068976,0,1295472176);
(3,63431643559,0,1296046759);
(0,63432297158,0,1296700358);
(1,63433005605,0,1297408805);
(2,63433615012,0,1298018212);
(3,63434186892,0,1298590092);
(0,63434868453,0,1299271653);
(1,63435570361,0,1299973561);
(2,63436155048,0,1300558248);
(3,63436738105,0,1301141305);
(0,63437438013,3600,1301841213);
(1,63438120343,3600,1302523543);
(2,63438691452,3600,1303094652);
(3,63439296425,3600,1303699625);
(0,63440002283,3600,1304405483);
(1,63440656368,3600,1305059568);
(2,63441227300,3600,1305630500);
(3,63441859936,3600,1306263136);
(0,63442558972,3600,1306962172);
(1,63443182227,3600,1307585427);
(2,63443765586,3600,1308168786);
(3,63444426555,3600,1308829755);
(0,63445107235,3600,1309510435);
(1,63445703377,3600,1310106577);
(2,63446308767,3600,1310711967);
(3,63446994240,3600,1311397440);
(0,63447647986,3600,1312051186);
(1,63448225737,3600,1312628937);
(2,63448858669,3600,1313261869);
(3,63449560605,3600,1313963805);
(0,63450183857,3600,1314587057);
(1,63450754819,3600,1315158019);
(2,63451416448,3600,1315819648);
(3,63452122820,3600,1316526020);
(0,63452718554,3600,1317121754);
(1,63453294965,3600,1317698165);
(2,63453982038,3600,1318385238);
(3,63454678301,3600,1319081501);
(0,63455255806,3600,1319659006);
(1,63455848719,0,1320251919);
(2,63456553089,0,1320956289);
(3,63457225811,0,1321629011);
(0,63457798268,0,1322201468);
(1,63458416367,0,1322819567);
(2,63459124701,0,1323527901);
(3,63459766130,0,1324169330);
(0,63460346901,0,1324750101)]).
Definition file_2012 : file := (true, ""%string, [
(1,63460995367,0,1325398567);
(2,63461691134,0,1326094334);
(3,63462301762,0,1326704962);
(0,63462901300,0,1327304500);
(1,63463579903,0,1327983103);
(2,63464248570,0,1328651770);
(3,63464835941,0,1329239141);
(0,63465460629,0,1329863829);
(1,63466161795,0,1330564995);
(2,63466796502,0,1331199702);
(3,63467371621,0,1331774821);
(0,63468023968,0,1332427168);
(1,63468733324,3600,1333136524);
(2,63469336826,3600,1333740026);
(3,63469911074,3600,1334314274);
(0,63470589617,3600,1334992817);
(1,63471290296,3600,1335693496);
(2,63471872167,3600,1336275367);
(3,63472456083,3600,1336859283);
(0,63473154501,3600,1337557701);
(1,63473832964,3600,1338236164);
(2,63474405104,3600,1338808304);
(3,63475008162,3600,1339411362);
(0,63475714980,3600,1340118180);
(1,63476364631,3600,1340767831);
(2,63476938306,3600,1341341506);
(3,63477568173,3600,1341971373);
(0,63478268672,3600,1342671872);
(1,63478889812,3600,1343293012);
(2,63479474844,3600,1343878044);
(3,63480135400,3600,1344538600);
(0,63480815671,3600,1345218871);
(1,63481413286,3600,1345816486);
(2,63482018265,3600,1346421465);
(3,63482706970,3600,1347110170);
(0,63483358234,3600,1347761434);
(1,63483939754,3600,1348342954);
(2,63484571912,3600,1348975112);
(3,63485278451,3600,1349681651);
(0,63485899356,3600,1350302556);
(1,63486473628,3600,1350876828);
(2,63487137030,0,1351540230);
(3,63487845415,0,1352248615);
(0,63488441300,0,1352844500);
(1,63489018756,0,1353421956);
(2,63489710848,0,1354114048);
(3,63490404769,0,1354807969);
(0,63490984944,0,1355388144);
(1,63491577593,0,1355980793);
(2,63492286960,0,1356690160)]).
Definition file_2013 : file := (true, ""%string, [
(3,63492955136,0,1357358336);
(0,63493530317,0,1357933517);
(1,63494149556,0,1358552756);
(2,63494858428,0,1359261628);
(3,63495496656,0,1359899856);
(0,63496077766,0,1360480966);
(1,63496729879,0,1361133079);
(2,63497420931,0,1361824131);
(3,63498030879,0,1362434079);
(0,63498628459,0,1363031659);
(1,63499310852,0,1363714052);
(2,63499973420,0,1364376620);
(3,63500560733,3600,1364963933);
(0,63501183529,3600,1365586729);
(1,63501885153,3600,1366288353);
(2,63502516797,3600,1366919997);
(3,63503090196,3600,1367493396);
(0,63503742700,3600,1368145900);
(1,63504448585,3600,1368851785);
(2,63505052823,3600,1369456023);
(3,63505623619,3600,1370026819);
(0,63506303941,3600,1370707141);
(1,63507000325,3600,1371403525);
(2,63507584018,3600,1371987218);
(3,63508164921,3600,1372568121);
(0,63508864566,3600,1373267766);
(1,63509541597,3600,1373944797);
(2,63510113792,3600,1374516992);
(3,63510716683,3600,1375119883);
(0,63511422692,3600,1375825892);
(1,63512074653,3600,1376477853);
(2,63512646306,3600,1377049506);
(3,63513279347,3600,1377682547);
(0,63513977772,3600,1378380972);
(1,63514602592,3600,1379005792);
(2,63515185958,3600,1379589158);
(3,63515850972,3600,1380254172);
(0,63516530050,3600,1380933250);
(1,63517129434,3600,1381532634);
(2,63517736256,3600,1382139456);
(3,63518427724,3600,1382830924);
(0,63519079772,0,1383482972);
(1,63519659927,0,1384063127);
(2,63520298190,0,1384701390);
(3,63521004621,0,1385407821);
(0,63521626939,0,1386030139);
(1,63522198789,0,1386601989);
(2,63522869360,0,1387272560);
(3,63523576220,0,1387979420)]).
Definition file_2014 : file := (true, ""%string, [
(0,63524171702,0,1388574902);
(1,63524749220,0,1389152420);
(2,63525444815,0,1389848015);
(3,63526137661,0,1390540861);
(0,63526714835,0,1391118035);
(1,63527311353,0,1391714553);
(2,63528018886,0,1392422086);
(3,63528686216,0,1393089416);
(0,63529257761,0,1393660961);
(1,63529882028,0,1394285228);
(2,63530586646,0,1394989846);
(3,63531222456,0,1395625656);
(0,63531802086,3600,1396205286);
(1,63532456304,3600,1396859504);
(2,63533144718,3600,1397547918);
(3,63533749986,3600,1398153186);
(0,63534349057,3600,1398752257);
(1,63535029409,3600,1399432609);
(2,63535691927,3600,1400095127);
(3,63536274033,3600,1400677233);
(0,63536899383,3600,1401302583);
(1,63537597658,3600,1402000858);
(2,63538229625,3600,1402632825);
(3,63538800005,3600,1403203205);
(0,63539453433,3600,1403856633);
(1,63540158441,3600,1404561641);
(2,63540761206,3600,1405164406);
(3,63541332584,3600,1405735784);
(0,63542011371,3600,1406414571);
(1,63542710256,3600,1407113456);
(2,63543291051,3600,1407694251);
(3,63543875221,3600,1408278421);
(0,63544572782,3600,1408975982);
(1,63545253113,3600,1409656313);
(2,63545823535,3600,1410226735);
(3,63546429949,3600,1410833149);
(0,63547136012,3600,1411539212);
(1,63547788782,3600,1412191982);
(2,63548362243,3600,1412765443);
(3,63548997196,3600,1413400396);
(0,63549698174,3600,1414101374);
(1,63550320536,0,1414723736);
(2,63550909376,0,1415312576);
(3,63551575075,0,1415978275);
(0,63552256324,0,1416659524);
(1,63552852443,0,1417255643);
(2,63553465633,0,1417868833);
(3,63554158433,0,1418561633);
(0,63554808975,0,1419212175);
(1,63555388370,0,1419791570)]).
Definition file_2015 : file := (true, ""%string, [
(2,63556030448,0,1420433648);
(3,63556739339,0,1421142539);
(0,63557356494,0,1421759694);
(1,63557930983,0,1422334183);
(2,63558601800,0,1423005000);
(3,63559309922,0,1423713122);
(0,63559900158,0,1424303358);
(1,63560481304,0,1424884504);
(2,63561175594,0,1425578794);
(3,63561865769,0,1426268969);
(0,63562441119,0,1426844319);
(1,63563039029,0,1427442229);
(2,63563746041,3600,1428149241);
(3,63564407112,3600,1428810312);
(0,63564980359,3600,1429383559);
(1,63565603009,3600,1430006209);
(2,63566307887,3600,1430711087);
(3,63566937413,3600,1431340613);
(0,63567519343,3600,1431922543);
(1,63568171242,3600,1432574442);
(2,63568858917,3600,1433262117);
(3,63569461388,3600,1433864588);
(0,63570060462,3600,1434463662);
(1,63570740647,3600,1435143847);
(2,63571400542,3600,1435803742);
(3,63571983961,3600,1436387161);
(0,63572606771,3600,1437009971);
(1,63573307515,3600,1437710715);
(2,63573936346,3600,1438339546);
(3,63574509931,3600,1438913131);
(0,63575160887,3600,1439564087);
(1,63575868732,3600,1440271932);
(2,63576470264,3600,1440873464);
(3,63577043818,3600,1441447018);
(0,63577723350,3600,1442126550);
(1,63578422808,3600,1442826008);
(2,63579005526,3600,1443408726);
(3,63579589693,3600,1443992893);
(0,63580291599,3600,1444694799);
(1,63580969933,3600,1445373133);
(2,63581544359,0,1445947559);
(3,63582150337,0,1446553537);
(0,63582860865,0,1447264065);
(1,63583511287,0,1447914487);
(2,63584088290,0,1448491490);
(3,63584725326,0,1449128526);
(0,63585426599,0,1449829799);
(1,63586048509,0,1450451709);
(2,63586638717,0,1451041917)]).
Definition file_2016 : file := (true, ""%string, [
(3,63587309500,0,1451712700);
(0,63587986276,0,1452389476);
(1,63588583648,0,1452986848);
(2,63589196780,0,1453599980);
(3,63589894145,0,1454297345);
(0,63590539200,0,1454942400);
(1,63591119271,0,1455522471);
(2,63591762033,0,1456165233);
(3,63592470758,0,1456873958);
(0,63593085359,0,1457488559);
(1,63593658263,0,1458061463);
(2,63594331298,0,1458734498);
(3,63595034321,3600,1459437521);
(0,63595625120,3600,1460028320);
(1,63596203244,3600,1460606444);
(2,63596899500,3600,1461302700);
(3,63597583807,3600,1461987007);
(0,63598159878,3600,1462563078);
(1,63598755799,3600,1463158999);
(2,63599462197,3600,1463865397);
(3,63600120821,3600,1464524021);
(0,63600692505,3600,1465095705);
(1,63601315839,3600,1465719039);
(2,63602017498,3600,1466420698);
(3,63602648459,3600,1467051659);
(0,63603227003,3600,1467630203);
(1,63603881561,3600,1468284761);
(2,63604565976,3600,1468969176);
(3,63605170955,3600,1469574155);
(0,63605767600,3600,1470170800);
(1,63606450136,3600,1470853336);
(2,63607109385,3600,1471512585);
(3,63607693447,3600,1472096647);
(0,63608317499,3600,1472720699);
(1,63609018658,3600,1473421858);
(2,63609649669,3600,1474052869);
(3,63610221549,3600,1474624749);
(0,63610877594,3600,1475280794);
(1,63611584514,3600,1475987714);
(2,63612188707,3600,1476591907);
(3,63612760574,3600,1477163774);
(0,63613445993,0,1477849193);
(1,63614145168,0,1478548368);
(2,63614728418,0,1479131618);
(3,63615314098,0,1479717298);
(0,63616018775,0,1480421975);
(1,63616698238,0,1481101438);
(2,63617270815,0,1481674015);
(3,63617882205,0,1482285405);
(0,63618591258,0,1482994458)]).
Definition file_2017 : file := (true, ""%string, [
(1,63619242461,0,1483645661);
(2,63619817712,0,1484220912);
(3,63620460861,0,1484864061);
(0,63621158899,0,1485562099);
(1,63621778787,0,1486181987);
(2,63622370038,0,1486773238);
(3,63623043313,0,1487446513);
(0,63623718015,0,1488121215);
(1,63624310418,0,1488713618);
(2,63624927289,0,1489330489);
(3,63625622489,0,1490025689);
(0,63626266766,3600,1490669966);
(1,63626841654,3600,1491244854);
(2,63627487757,3600,1491890957);
(3,63628192805,3600,1492596005);
(0,63628805891,3600,1493209091);
(1,63629376490,3600,1493779690);
(2,63630049436,3600,1494452636);
(3,63630750936,3600,1495154136);
(0,63631338382,3600,1495741582);
(1,63631917780,3600,1496320980);
(2,63632610675,3600,1497013875);
(3,63633296101,3600,1497699301);
(0,63633868363,3600,1498271563);
(1,63634467107,3600,1498870307);
(2,63635170111,3600,1499573311);
(3,63635830058,3600,1500233258);
(0,63636400046,3600,1500803246);
(1,63637025037,3600,1501428237);
(2,63637726367,3600,1502129567);
(3,63638356611,3600,1502759811);
(0,63638937094,3600,1503340294);
(1,63639591259,3600,1503994459);
(2,63640278295,3600,1504681495);
(3,63640880804,3600,1505284004);
(0,63641482246,3600,1505885446);
(1,63642164109,3600,1506567309);
(2,63642825716,3600,1507228916);
(3,63643408035,3600,1507811235);
(0,63644037158,3600,1508440358);
(1,63644739797,3600,1509142997);
(2,63645369869,0,1509773069);
(3,63645943102,0,1510346302);
(0,63646602172,0,1511005372);
(1,63647312608,0,1511715808);
(2,63647912910,0,1512316110);
(3,63648489182,0,1512892382);
(0,63649175489,0,1513578689);
(1,63649876824,0,1514280024)]).
Definition file_2018 : file := (true, ""%string, [
(2,63650456729,0,1514859929);
(3,63651047193,0,1515450393);
(0,63651752298,0,1516155498);
(1,63652429233,0,1516832433);
(2,63653002066,0,1517405266);
(3,63653615749,0,1518018949);
(0,63654325611,0,1518728811);
(1,63654970161,0,1519373361);
(2,63655548730,0,1519951930);
(3,63656191374,0,1520594574);
(0,63656889259,0,1521292459);
(1,63657502552,0,1521905752);
(2,63658096667,3600,1522499867);
(3,63658768861,3600,1523172061);
(0,63659440793,3600,1523843993);
(1,63660030410,3600,1524433610);
(2,63660646754,3600,1525049954);
(3,63661342294,3600,1525745494);
(0,63661981789,3600,1526384989);
(1,63662557839,3600,1526961039);
(2,63663200448,3600,1527603648);
(3,63663906848,3600,1528310048);
(0,63664515904,3600,1528919104);
(1,63665088754,3600,1529491954);
(2,63665758475,3600,1530161675);
(3,63666460369,3600,1530863569);
(0,63667046975,3600,1531450175);
(1,63667626837,3600,1532030037);
(2,63668319739,3600,1532722939);
(3,63669003590,3600,1533406790);
(0,63669578347,3600,1533981547);
(1,63670175394,3600,1534578594);
(2,63670881504,3600,1535284704);
(3,63671539150,3600,1535942350);
(0,63672112961,3600,1536516161);
(1,63672736565,3600,1537139765);
(2,63673440889,3600,1537844089);
(3,63674070435,3600,1538473635);
(0,63674653670,3600,1539056870);
(1,63675309749,3600,1539712949);
(2,63675996454,3600,1540399654);
(3,63676600947,0,1541004147);
(0,63677203372,0,1541606572);
(1,63677890469,0,1542293669);
(2,63678548486,0,1542951686);
(3,63679134078,0,1543537278);
(0,63679764102,0,1544167302);
(1,63680471377,0,1544874577);
(2,63681097827,0,1545501027);
(3,63681673002,0,1546076202)]).
Definition file_2019 : file := (true, ""%string, [
(0,63682334992,0,1546738192);
(1,63683045175,0,1547448375);
(2,63683644630,0,1548047830);
(3,63684220343,0,1548623543);
(0,63684911093,0,1549314293);
(1,63685607194,0,1550010394);
(2,63686188438,0,1550591638);
(3,63686777381,0,1551180581);
(0,63687485127,0,1551888327);
(1,63688156018,0,1552559218);
(2,63688729380,0,1553132580);
(3,63689343087,0,1553746287);
(0,63690051142,3600,1554454342);
(1,63690692763,3600,1555095963);
(2,63691269138,3600,1555672338);
(3,63691913966,3600,1556317166);
(0,63692606821,3600,1557010021);
(1,63693220380,3600,1557623580);
(2,63693810696,3600,1558213896);
(3,63694485271,3600,1558888471);
(0,63695152979,3600,1559556179);
(1,63695743234,3600,1560146434);
(2,63696357078,3600,1560760278);
(3,63697052880,3600,1561456080);
(0,63697691830,3600,1562095030);
(1,63698266592,3600,1562669792);
(2,63698909971,3600,1563313171);
(3,63699614429,3600,1564017629);
(0,63700225975,3600,1564629175);
(1,63700795961,3600,1565199161);
(2,63701469077,3600,1565872277);
(3,63702169135,3600,1566572335);
(0,63702758300,3600,1567161500);
(1,63703336309,3600,1567739509);
(2,63704032523,3600,1568435723);
(3,63704717012,3600,1569120212);
(0,63705292074,3600,1569695274);
(1,63705890884,3600,1570294084);
(2,63706597850,3600,1571001050);
(3,63707258497,3600,1571661697);
(0,63707830815,0,1572234015);
(1,63708459818,0,1572863018);
(2,63709162644,0,1573565844);
(3,63709794789,0,1574197989);
(0,63710377661,0,1574780861);
(1,63711039534,0,1575442734);
(2,63711724492,0,1576127692);
(3,63712328360,0,1576731560);
(0,63712934131,0,1577337331)]).
Definition file_2020 : file := (true, ""%string, [
(1,63713623612,0,1578026812);
(2,63714280994,0,1578684194);
(3,63714862835,0,1579266035);
(0,63715499051,0,1579902251);
(1,63716204608,0,1580607808);
(2,63716830475,0,1581233675);
(3,63717401949,0,1581805149);
(0,63718068824,0,1582472024);
(1,63718775918,0,1583179118);
(2,63719372915,0,1583776115);
(3,63719948139,0,1584351339);
(0,63720638976,0,1585042176);
(1,63721333312,3600,1585736512);
(2,63721910136,3600,1586313336);
(3,63722501817,3600,1586905017);
(0,63723205620,3600,1587608820);
(1,63723875924,3600,1588279124);
(2,63724445135,3600,1588848335);
(3,63725061798,3600,1589464998);
(0,63725765989,3600,1590169189);
(1,63726406222,3600,1590809422);
(2,63726981163,3600,1591384363);
(3,63727626299,3600,1592029499);
(0,63728318536,3600,1592721736);
(1,63728928990,3600,1593332190);
(2,63729521097,3600,1593924297);
(3,63730193488,3600,1594596688);
(0,63730863216,3600,1595266416);
(1,63731450027,3600,1595853227);
(2,63732067178,3600,1596470378);
(3,63732761268,3600,1597164468);
(0,63733401735,3600,1597804935);
(1,63733975151,3600,1598378351);
(2,63734620992,3600,1599024192);
(3,63735326898,3600,1599730098);
(0,63735937259,3600,1600340459);
(1,63736509394,3600,1600912594);
(2,63737183215,3600,1601586415);
(3,63737887284,3600,1602290484);
(0,63738473534,3600,1602876734);
(1,63739056257,3600,1603459457);
(2,63739752689,0,1604155889);
(3,63740440058,0,1604843258);
(0,63741013734,0,1605416934);
(1,63741617154,0,1606020354);
(2,63742325524,0,1606728724);
(3,63742984679,0,1607387879);
(0,63743559525,0,1607962725);
(1,63744190951,0,1608594151);
(2,63744895824,0,1609299024)]).
Definition file_2021 : file := (true, ""%string, [
(3,63745522715,0,1609925915);
(0,63746110957,0,1610514157);
(1,63746773415,0,1611176615);
(2,63747458315,0,1611861515);
(3,63748057122,0,1612460322);
(0,63748667291,0,1613070491);
(1,63749357346,0,1613760546);
(2,63750010776,0,1614413976);
(3,63750591120,0,1614994320);
(0,63751227812,0,1615631012);
(1,63751934506,0,1616337706);
(2,63752554204,3600,1616957404);
(3,63753127452,3600,1617530652);
(0,63753791576,3600,1618194776);
(1,63754498801,3600,1618902001);
(2,63755091184,3600,1619494384);
(3,63755668303,3600,1620071503);
(0,63756356493,3600,1620759693);
(1,63757048393,3600,1621451593);
(2,63757624491,3600,1622027691);
(3,63758215564,3600,1622618764);
(0,63758919245,3600,1623322445);
(1,63759585284,3600,1623988484);
(2,63760156814,3600,1624560014);
(3,63760770759,3600,1625173959);
(0,63761476663,3600,1625879863);
(1,63762113497,3600,1626516697);
(2,63762691047,3600,1627094247);
(3,63763334296,3600,1627737496);
(0,63764027446,3600,1628430646);
(1,63764637664,3600,1629040864);
(2,63765230535,3600,1629633735);
(3,63765904502,3600,1630307702);
(0,63766572721,3600,1630975921);
(1,63767162480,3600,1631565680);
(2,63767778884,3600,1632182084);
(3,63768477504,3600,1632880704);
(0,63769115144,3600,1633518344);
(1,63769692455,3600,1634095655);
(2,63770338661,3600,1634741861);
(3,63771048404,3600,1635451604);
(0,63771657326,0,1636060526);
(1,63772231702,0,1636634902);
(2,63772909181,0,1637312381);
(3,63773612991,0,1638016191);
(0,63774200670,0,1638603870);
(1,63774783452,0,1639186652);
(2,63775485478,0,1639888678);
(3,63776168760,0,1640571960)]).
Definition file_2022 : file := (true, ""%string, [
(0,63776745349,0,1641148549);
(1,63777348800,0,1641752000);
(2,63778060269,0,1642463469);
(3,63778714978,0,1643118178);
(0,63779291350,0,1643694550);
(1,63779925113,0,1644328313);
(2,63780627581,0,1645030781);
(3,63781252472,0,1645655672);
(0,63781839496,0,1646242696);
(1,63782505984,0,1646909184);
(2,63783184837,0,1647588037);
(3,63783783564,0,1648186764);
(0,63784391259,3600,1648794459);
(1,63785083705,3600,1649486905);
(2,63785732252,3600,1650135452);
(3,63786311894,3600,1650715094);
(0,63786947444,3600,1651350644);
(1,63787652533,3600,1652055733);
(2,63788271352,3600,1652674552);
(3,63788841874,3600,1653245074);
(0,63789507131,3600,1653910331);
(1,63790210152,3600,1654613352);
(2,63790804357,3600,1655207557);
(3,63791377913,3600,1655781113);
(0,63792068005,3600,1656471205);
(1,63792756896,3600,1657160096);
(2,63793334286,3600,1657737486);
(3,63793923563,3600,1658326763);
(0,63794627726,3600,1659030926);
(1,63795294451,3600,1659697651);
(2,63795864963,3600,1660268163);
(3,63796480594,3600,1660883794);
(0,63797185015,3600,1661588215);
(1,63797825330,3600,1662228530);
(2,63798400731,3600,1662803931);
(3,63799048337,3600,1663451537);
(0,63799739644,3600,1664142844);
(1,63800352926,3600,1664756126);
(2,63800945681,3600,1665348881);
(3,63801623763,3600,1666026963);
(0,63802291700,3600,1666694900);
(1,63802881533,0,1667284733);
(2,63803502166,0,1667905366);
(3,63804202169,0,1668605369);
(0,63804841041,0,1669244241);
(1,63805415912,0,1669819112);
(2,63806069388,0,1670472588);
(3,63806777967,0,1671181167);
(0,63807387476,0,1671790676);
(1,63807960154,0,1672363354)]).
Definition file_2023 : file := (true, ""%string, [
(2,63808643395,0,1673046595);
(3,63809345607,0,1673748807);
(0,63809931330,0,1674334530);
(1,63810516024,0,1674919224);
(2,63811218644,0,1675621844);
(3,63811900995,0,1676304195);
(0,63812473745,0,1676876945);
(1,63813081997,0,1677485197);
(2,63813789769,0,1678192969);
(3,63814443017,0,1678846217);
(0,63815016404,0,1679419604);
(1,63815653992,3600,1680057192);
(2,63816352638,3600,1680755838);
(3,63816973973,3600,1681377173);
(0,63817560948,3600,1681964148);
(1,63818227268,3600,1682630468);
(2,63818905007,3600,1683308207);
(3,63819498566,3600,1683901766);
(0,63820108556,3600,1684511756);
(1,63820797829,3600,1685201029);
(2,63821447036,3600,1685850236);
(3,63822022346,3600,1686425546);
(0,63822659950,3600,1687063150);
(1,63823362679,3600,1687765879);
(2,63823981230,3600,1688384430);
(3,63824550547,3600,1688953747);
(0,63825215586,3600,1689618786);
(1,63825919692,3600,1690322892);
(2,63826511606,3600,1690914806);
(3,63827087396,3600,1691490596);
(0,63827775529,3600,1692178729);
(1,63828467901,3600,1692871101);
(2,63829042625,3600,1693445825);
(3,63829635752,3600,1694038952);
(0,63830338805,3600,1694742005);
(1,63831007959,3600,1695411159);
(2,63831578301,3600,1695981501);
(3,63832196941,3600,1696600141);
(0,63832902908,3600,1697306108);
(1,63833542213,3600,1697945413);
(2,63834121467,3600,1698524667);
(3,63834770325,0,1699173525);
(0,63835464435,0,1699867635);
(1,63836074250,0,1700477450);
(2,63836673401,0,1701076601);
(3,63837352318,0,1701755518);
(0,63838020727,0,1702423927);
(1,63838608028,0,1703011228);
(2,63839234023,0,1703637223)]).
Definition file_2024 : file := (true, ""%string, [
(3,63839935976,0,1704339176);
(0,63840571085,0,1704974285);
(1,63841146835,0,1705550035);
(2,63841802083,0,1706205283);
(3,63842512808,0,1706916008);
(0,63843116444,0,1707519644);
(1,63843692526,0,1708095726);
(2,63844374679,0,1708777879);
(3,63845076325,0,1709479525);
(0,63845658165,0,1710061365);
(1,63846245510,0,1710648710);
(2,63846946897,0,1711350097);
(3,63847624550,3600,1712027750);
(0,63848197401,3600,1712600601);
(1,63848805269,3600,1713208469);
(2,63849513069,3600,1713916269);
(3,63850159672,3600,1714562872);
(0,63850735459,3600,1715138659);
(1,63851370575,3600,1715773775);
(2,63852069352,3600,1716472552);
(3,63852686019,3600,1717089219);
(0,63853274402,3600,1717677602);
(1,63853939193,3600,1718342393);
(2,63854615432,3600,1719018632);
(3,63855208505,3600,1719611705);
(0,63855817157,3600,1720220357);
(1,63856507794,3600,1720910994);
(2,63857153990,3600,1721557190);
(3,63857732042,3600,1722135242);
(0,63858366861,3600,1722770061);
(1,63859072788,3600,1723475988);
(2,63859688915,3600,1724092115);
(3,63860261338,3600,1724664538);
(0,63860925405,3600,1725328605);
(1,63861631607,3600,1726034807);
(2,63862223803,3600,1726627003);
(3,63862800758,3600,1727203958);
(0,63863491832,3600,1727895032);
(1,63864183379,3600,1728586579);
(2,63864761274,3600,1729164474);
(3,63865353910,3600,1729757110);
(0,63866062093,0,1730465293);
(1,63866728595,0,1731131795);
(2,63867302977,0,1731706177);
(3,63867922198,0,1732325398);
(0,63868630942,0,1733034142);
(1,63869268463,0,1733671663);
(2,63869850154,0,1734253354);
(3,63870502796,0,1734905996);
(0,63871194469,0,1735597669)]).
Definition file_2025 : file := (true, ""%string, [
(1,63871804655,0,1736207855);
(2,63872404064,0,1736807264);
(3,63873088331,0,1737491531);
(0,63873751038,0,1738154238);
(1,63874339430,0,1738742630);
(2,63874965266,0,1739368466);
(3,63875669680,0,1740072880);
(0,63876300403,0,1740703603);
(1,63876875619,0,1741278819);
(2,63877532156,0,1741935356);
(3,63878239925,0,1742643125);
(0,63878842807,0,1743246007);
(1,63879416204,3600,1743819404);
(2,63880100636,3600,1744503836);
(3,63880796261,3600,1745199461);
(0,63881379202,3600,1745782402);
(1,63881963607,3600,1746366807);
(2,63882665886,3600,1747069086);
(3,63883339230,3600,1747742430);
(0,63883911865,3600,1748315065);
(1,63884518914,3600,1748922114);
(2,63885224766,3600,1749627966);
(3,63885871258,3600,1750274458);
(0,63886444410,3600,1750847610);
(1,63887081419,3600,1751484619);
(2,63887776734,3600,1752179934);
(3,63888395981,3600,1752799181);
(0,63888981147,3600,1753384347);
(1,63889648872,3600,1754052072);
(2,63890323027,3600,1754726227);
(3,63890918066,3600,1755321266);
(0,63891526026,3600,1755929226);
(1,63892218330,3600,1756621530);
(2,63892865441,3600,1757268641);
(3,63893442909,3600,1757846109);
(0,63894081276,3600,1758484476);
(1,63894786887,3600,1759190087);
(2,63895405737,3600,1759808937);
(3,63895976071,3600,1760379271);
(0,63896646358,3600,1761049558);
(1,63897351721,0,1761754921);
(2,63897945626,0,1762348826);
(3,63898522177,0,1762925377);
(0,63899218096,0,1763621296);
(1,63899909985,0,1764313185);
(2,63900486918,0,1764890118);
(3,63901083168,0,1765486368);
(0,63901791865,0,1766195065);
(1,63902459438,0,1766862638)]).
Definition file_2026 : file := (true, ""%string, [
(2,63903031455,0,1767434655);
(3,63903656954,0,1768060154);
(0,63904362797,0,1768765997);
(1,63904999703,0,1769402903);
(2,63905580636,0,1769983836);
(3,63906237883,0,1770641083);
(0,63906926585,0,1771329785);
(1,63907532939,0,1771936139);
(2,63908134752,0,1772537952);
(3,63908818894,0,1773222094);
(0,63909480361,0,1773883561);
(1,63910063162,0,1774466362);
(2,63910692800,3600,1775096000);
(3,63911393720,3600,1775796920);
(0,63912023658,3600,1776426858);
(1,63912594802,3600,1776998002);
(2,63913253083,3600,1777656283);
(3,63913958024,3600,1778361224);
(0,63914558587,3600,1778961787);
(1,63915131525,3600,1779534725);
(2,63915814006,3600,1780217206);
(3,63916509784,3600,1780912984);
(0,63917088960,3600,1781492160);
(1,63917675757,3600,1782078957);
(2,63918374290,3600,1782777490);
(3,63919049454,3600,1783452654);
(0,63919619107,3600,1784022307);
(1,63920228748,3600,1784631948);
(2,63920932631,3600,1785335831);
(3,63921579773,3600,1785982973);
(0,63922153057,3600,1786556257);
(1,63922790794,3600,1787193994);
(2,63923487597,3600,1787890797);
(3,63924105141,3600,1788508341);
(0,63924694038,3600,1789097238);
(1,63925361065,3600,1789764265);
(2,63926038221,3600,1790441421);
(3,63926630775,3600,1791033975);
(0,63927244211,3600,1791647411);
(1,63927936817,3600,1792340017);
(2,63928584787,0,1792987987);
(3,63929161802,0,1793565002);
(0,63929804550,0,1794207750);
(1,63930512911,0,1794916111);
(2,63931128902,0,1795532102);
(3,63931702228,0,1796105428);
(0,63932374369,0,1796777569);
(1,63933082989,0,1797486189);
(2,63933672587,0,1798075787);
(3,63934254057,0,1798657257)]).
Definition file_2027 : file := (true, ""%string, [
(0,63934950329,0,1799353529);
(1,63935642091,0,1800045291);
(2,63936217112,0,1800620312);
(3,63936817008,0,1801220208);
(0,63937526231,0,1801929431);
(1,63938188706,0,1802591906);
(2,63938762651,0,1803165851);
(3,63939388712,0,1803791912);
(0,63940095080,0,1804498280);
(1,63940724705,0,1805127905);
(2,63941309042,0,1805712242);
(3,63941964996,3600,1806368196);
(0,63942652410,3600,1807055610);
(1,63943253821,3600,1807657021);
(2,63943856846,3600,1808260046);
(3,63944540417,3600,1808943617);
(0,63945198023,3600,1809601223);
(1,63945780281,3600,1810183481);
(2,63946407568,3600,1810810768);
(3,63947109597,3600,1811512797);
(0,63947734901,3600,1812138101);
(1,63948308236,3600,1812711436);
(2,63948962712,3600,1813365912);
(3,63949668973,3600,1814072173);
(0,63950267008,3600,1814670208);
(1,63950841627,3600,1815244827);
(2,63951522376,3600,1815925576);
(3,63952217796,3600,1816620996);
(0,63952797982,3600,1817201182);
(1,63953384120,3600,1817787320);
(2,63954084622,3600,1818487822);
(3,63954757729,3600,1819160929);
(0,63955330920,3600,1819734120);
(1,63955938717,3600,1820341917);
(2,63956646323,3600,1821049523);
(3,63957291708,3600,1821694908);
(0,63957868603,3600,1822271803);
(1,63958506464,3600,1822909664);
(2,63959204936,3600,1823608136);
(3,63959823037,3600,1824226237);
(0,63960413818,3600,1824817018);
(1,63961084798,0,1825487998);
(2,63961759669,0,1826162869);
(3,63962355005,0,1826758205);
(0,63962969108,0,1827372308);
(1,63963667322,0,1828070522);
(2,63964311037,0,1828714237);
(3,63964890787,0,1829293987);
(0,63965535228,0,1829938428)]).
Definition file_2028 : file := (true, ""%string, [
(1,63966246064,0,1830649264);
(2,63966859473,0,1831262673);
(3,63967433289,0,1831836489);
(0,63968109246,0,1832512446);
(1,63968814682,0,1833217882);
(2,63969404677,0,1833807877);
(3,63969984606,0,1834387806);
(0,63970684739,0,1835087939);
(1,63971370164,0,1835773364);
(2,63971946391,0,1836349591);
(3,63972545098,0,1836948298);
(0,63973254805,3600,1837658005);
(1,63973912543,3600,1838315743);
(2,63974485619,3600,1838888819);
(3,63975112716,3600,1839515916);
(0,63975815343,3600,1840218543);
(1,63976443994,3600,1840847194);
(2,63977024964,3600,1841428164);
(3,63977683463,3600,1842086663);
(0,63978365875,3600,1842769075);
(1,63978968285,3600,1843371485);
(2,63979567776,3600,1843970976);
(3,63980252946,3600,1844656146);
(0,63980908136,3600,1845311336);
(1,63981490356,3600,1845893556);
(2,63982116727,3600,1846519927);
(3,63982817947,3600,1847221147);
(0,63983444577,3600,1847847777);
(1,63984015733,3600,1848418933);
(2,63984672696,3600,1849075896);
(3,63985376890,3600,1849780090);
(0,63985977889,3600,1850381089);
(1,63986549837,3600,1850953037);
(2,63987234574,3600,1851637774);
(3,63987929284,3600,1852332484);
(0,63988511071,3600,1852914271);
(1,63989097022,3600,1853500222);
(2,63989800012,3600,1854203212);
(3,63990475099,3600,1854878299);
(0,63991047445,3600,1855450645);
(1,63991659151,3600,1856062351);
(2,63992366342,0,1856769542);
(3,63993014810,0,1857418010);
(0,63993590320,0,1857993520);
(1,63994234414,0,1858637614);
(2,63994930900,0,1859334100);
(3,63995549996,0,1859953196);
(0,63996142044,0,1860545244);
(1,63996817481,0,1861220681)]).
Definition file_2029 : file := (true, ""%string, [
(3,63998083661,0,1862486861);
(0,63998702763,0,1863105963);
(1,63999401060,0,1863804260);
(2,64000044289,0,1864447489);
(3,64000619632,0,1865022832);
(0,64001269997,0,1865673197);
(1,64001977892,0,1866381092);
(2,64002589887,0,1866993087);
(3,64003161203,0,1867564403);
(0,64003839670,0,1868242870);
(1,64004542471,0,1868945671);
(2,64005128850,3600,1869532050);
(3,64005709984,3600,1870113184);
(0,64006407722,3600,1870810922);
(1,64007092274,3600,1871495474);
(2,64007663864,3600,1872067064);
(3,64008265751,3600,1872668951);
(0,64008971025,3600,1873374225);
(1,64009628228,3600,1874031428);
(2,64010198296,3600,1874601496);
(3,64010827212,3600,1875230412);
(0,64011527512,3600,1875930712);
(1,64012154116,3600,1876557316);
(2,64012735386,3600,1877138586);
(3,64013392792,3600,1877795992);
(0,64014076327,3600,1878479527);
(1,64014675345,3600,1879078545);
(2,64015277802,3600,1879681002);
(3,64015960717,3600,1880363917);
(0,64016618195,3600,1881021395);
(1,64017197815,3600,1881601015);
(2,64017827536,3600,1882230736);
(3,64018528563,3600,1882931763);
(0,64019155501,3600,1883558701);
(1,64019727051,3600,1884130251);
(2,64020385826,3600,1884789026);
(3,64021093128,3600,1885496328);
(0,64021691712,3600,1886094912);
(1,64022267401,3600,1886670601);
(2,64022952544,3600,1887355744);
(3,64023651205,0,1888054405);
(0,64024230299,0,1888633499);
(1,64024821334,0,1889224534);
(2,64025525075,0,1889928275);
(3,64026200915,0,1890604115);
(0,64026773601,0,1891176801);
(1,64027388976,0,1891792176);
(2,64028098076,0,1892501276);
(3,64028742588,0,1893145788)]).
Definition file_2030 : file := (true, ""%string, [
(0,64029322274,0,1893725474);
(1,64029967625,0,1894370825);
(2,64030665369,0,1895068569);
(3,64031278526,0,1895681726);
(0,64031875780,0,1896278980);
(1,64032551466,0,1896954666);
(2,64033222926,0,1897626126);
(3,64033811950,0,1898215150);
(0,64034433423,0,1898836623);
(1,64035132545,0,1899535745);
(2,64035770317,0,1900173517);
(3,64036345979,0,1900749179);
(0,64036994684,3600,1901397884);
(1,64037703485,3600,1902106685);
(2,64038309700,3600,1902712900);
(3,64038883223,3600,1903286423);
(0,64039558430,3600,1903961630);
(1,64040260327,3600,1904663527);
(2,64040844005,3600,1905247205);
(3,64041425914,3600,1905829114);
(0,64042122143,3600,1906525343);
(1,64042803348,3600,1907206548);
(2,64043376067,3600,1907779267);
(3,64043976048,3600,1908379248);
(0,64044682501,3600,1909085701);
(1,64045335724,3600,1909738924);
(2,64045908710,3600,1910311910);
(3,64046534941,3600,1910938141);
(0,64047237073,3600,1911640273);
(1,64047861807,3600,1912265007);
(2,64048445057,3600,1912848257);
(3,64049102217,3600,1913505417);
(0,64049785639,3600,1914188839);
(1,64050386211,3600,1914789411);
(2,64050988653,3600,1915391853);
(3,64051675056,3600,1916078256);
(0,64052330077,3600,1916733277);
(1,64052913482,3600,1917316682);
(2,64053542812,3600,1917946012);
(3,64054248685,3600,1918651885);
(0,64054873035,3600,1919276235);
(1,64055447883,0,1919851083);
(2,64056108694,0,1920511894);
(3,64056818035,0,1921221235);
(0,64057416428,0,1921819628);
(1,64057993104,0,1922396304);
(2,64058683328,0,1923086528);
(3,64059379375,0,1923782575);
(0,64059960801,0,1924364001)]).
Definition file_2031 : file := (true, ""%string, [
(2,64061260044,0,1925663244);
(3,64061930915,0,1926334115);
(0,64062505974,0,1926909174);
(1,64063122249,0,1927525449);
(2,64063831699,0,1928234899);
(3,64064472664,0,1928875864);
(0,64065052290,0,1929455490);
(1,64065700968,0,1930104168);
(2,64066393935,0,1930797135);
(3,64067006242,0,1931409442);
(0,64067601122,0,1932004322);
(1,64068280358,3600,1932683558);
(2,64068945832,3600,1933349032);
(3,64069534778,3600,1933937978);
(0,64070153994,3600,1934557194);
(1,64070853616,3600,1935256816);
(2,64071488523,3600,1935891723);
(3,64072062519,3600,1936465719);
(0,64072711176,3600,1937114376);
(1,64073416840,3600,1937820040);
(2,64074024003,3600,1938427203);
(3,64074594127,3600,1938997327);
(0,64075271190,3600,1939674390);
(1,64075969213,3600,1940372413);
(2,64076554941,3600,1940958141);
(3,64077133866,3600,1941537066);
(0,64077831686,3600,1942234886);
(1,64078511770,3600,1942914970);
(2,64079084790,3600,1943487990);
(3,64079684685,3600,1944087885);
(0,64080390776,3600,1944793976);
(1,64081046473,3600,1945449673);
(2,64081617668,3600,1946020868);
(3,64082247318,3600,1946650518);
(0,64082947629,3600,1947350829);
(1,64083576085,3600,1947979285);
(2,64084157882,3600,1948561082);
(3,64084819877,3600,1949223077);
(0,64085502047,3600,1949905247);
(1,64086104298,3600,1950507498);
(2,64086708785,0,1951111985);
(3,64087398251,0,1951801451);
(0,64088053773,0,1952456973);
(1,64088635602,0,1953038802);
(2,64089271161,0,1953674361);
(3,64089976945,0,1954380145);
(0,64090602350,0,1955005550);
(1,64091174513,0,1955577713);
(2,64091842431,0,1956245631)]).
Definition file_2032 : file := (true, ""%string, [
(3,64092549992,0,1956953192);
(0,64093147635,0,1957550835);
(1,64093724094,0,1958127294);
(2,64094417581,0,1958820781);
(3,64095112220,0,1959515420);
(0,64095690337,0,1960093537);
(1,64096284519,0,1960687719);
(2,64096991034,0,1961394234);
(3,64097660872,0,1962064072);
(0,64098232007,0,1962635207);
(1,64098852961,0,1963256161);
(2,64099558060,0,1963961260);
(3,64100196657,3600,1964599857);
(0,64100774519,3600,1965177719);
(1,64101425068,3600,1965828268);
(2,64102115509,3600,1966518709);
(3,64102723351,3600,1967126551);
(0,64103319496,3600,1967722696);
(1,64103996679,3600,1968399879);
(2,64104662379,3600,1969065579);
(3,64105246338,3600,1969649538);
(0,64105868075,3600,1970271275);
(1,64106564517,3600,1970967717);
(2,64107200094,3600,1971603294);
(3,64107771202,3600,1972174402);
(0,64108421021,3600,1972824221);
(1,64109126055,3600,1973529255);
(2,64109732039,3600,1974135239);
(3,64110302841,3600,1974706041);
(0,64110978786,3600,1975381986);
(1,64111679570,3600,1976082770);
(2,64112262549,3600,1976665749);
(3,64112844931,3600,1977248131);
(0,64113541062,3600,1977944262);
(1,64114224639,3600,1978627839);
(2,64114795917,3600,1979199117);
(3,64115399657,3600,1979802857);
(0,64116106028,3600,1980509228);
(1,64116762530,3600,1981165730);
(2,64117335553,3600,1981738753);
(3,64117967456,3600,1982370656);
(0,64118670326,0,1983073526);
(1,64119296073,0,1983699273);
(2,64119883374,0,1984286574);
(3,64120546246,0,1984949446);
(0,64121230400,0,1985633600);
(1,64121828998,0,1986232198);
(2,64122439784,0,1986842984);
(3,64123130537,0,1987533737)]).
Definition file_2033 : file := (true, ""%string, [
(0,64123784261,0,1988187461);
(1,64124364947,0,1988768147);
(2,64125004063,0,1989407263);
(3,64125712082,0,1990115282);
(0,64126332056,0,1990735256);
(1,64126906514,0,1991309714);
(2,64127574282,0,1991977482);
(3,64128282895,0,1992686095);
(0,64128875112,0,1993278312);
(1,64129454864,0,1993858064);
(2,64130146679,0,1994549879);
(3,64130838657,0,1995241857);
(0,64131414817,3600,1995818017);
(1,64132010077,3600,1996413277);
(2,64132715916,3600,1997119116);
(3,64133379759,3600,1997782959);
(0,64133952487,3600,1998355687);
(1,64134571583,3600,1998974783);
(2,64135277093,3600,1999680293)]).
Definition file_2034 : file := (true, "warn_no_data"%string, [
]).
Definition file_2035 : file := (true, "warn_no_data"%string, [
]).
Definition file_2036 : file := (true, "warn_no_data"%string, [
]).
Definition file_2037 : file := (true, "warn_no_data"%string, [
]).
Definition file_2038 : file := (true, "warn_no_data"%string, [
]).
Definition file_2039 : file := (true, "warn_no_data"%string, [
]).
Definition file_2040 : file := (true, "warn_no_data"%string, [
]).

(** The years for which a file is embedded, with the files. *)
Definition astro_files : list (Z * file) := [
(1900, file_1900);
(1901, file_1901);
(1902, file_1902);
(1903, file_1903);
(1904, file_1904);
(1905, file_1905);
(1906, file_1906);
(1907, file_1907);
(1908, file_1908);
(1909, file_1909);
(1910, file_1910);
(1911, file_1911);
(1912, file_1912);
(1913, file_1913);
(1914, file_1914);
(1915, file_1915);
(1916, file_1916);
(1917, file_1917);
(1918, file_1918);
(1919, file_1919);
(1920, file_1920);
(1921, file_1921);
(1922, file_1922);
(1923, file_1923);
(1924, file_1924);
(1925, file_1925);
(1926, file_1926);
(1927, file_1927);
(1928, file_1928);
(1929, file_1929);
(1930, file_1930);
(1931, file_1931);
(1932, file_1932);
(1933, file_1933);
(1934, file_1934);
(1935, file_1935);
(1936, file_1936);
(1937, file_1937);
(1938, file_1938);
(1939, file_1939);
(1940, file_1940);
(1941, file_1941);
(1942, file_1942);
(1943, file_1943);
(1944, file_1944);
(1945, file_1945);
(1946, file_1946);
(1947, file_1947);
(1948, file_1948);
(1949, file_1949);
(1950, file_1950);
(1951, file_1951);
(1952, file_1952);
(1953, file_1953);
(1954, file_1954);
(1955, file_1955);
(1956, file_1956);
(1957, file_1957);
(1958, file_1958);
(1959, file_1959);
(1960, file_1960);
(1961, file_1961);
(1962, file_1962);
(1963, file_1963);
(1964, file_1964);
(1965, file_1965);
(1966, file_1966);
(1967, file_1967);
(1968, file_1968);
(1969, file_1969);
(1970, file_1970);
(1971, file_1971);
(1972, file_1972);
(1973, file_1973);
(1974, file_1974);
(1975, file_1975);
(1976, file_1976);
(1977, file_1977);
(1978, file_1978);
(1979, file_1979);
(1980, file_1980);
(1981, file_1981);
(1982, file_1982);
(1983, file_1983);
(1984, file_1984);
(1985, file_1985);
(1986, file_1986);
(1987, file_1987);
(1988, file_1988);
(1989, file_1989);
(1990, file_1990);
(1991, file_1991);
(1992, file_1992);
(1993, file_1993);
(1994, file_1994);
(1995, file_1995);
(1996, file_1996);
(1997, file_1997);
(1998, file_1998);
(1999, file_1999);
(2000, file_2000);
(2001, file_2001);
(2002, file_2002);
(2003, file_2003);
(2004, file_2004);
(2005, file_2005);
(2006, file_2006);
(2007, file_2007);
(2008, file_2008);
(2009, file_2009);
(2010, file_2010);
(2011, file_2011);
(2012, file_2012);
(2013, file_2013);
(2014, file_2014);
(2015, file_2015);
(2016, file_2016);
(2017, file_2017);
(2018, file_2018);
(2019, file_2019);
(2020, file_2020);
(2021, file_2021);
(2022, file_2022);
(2023, file_2023);
(2024, file_2024);
(2025, file_2025);
(2026, file_2026);
(2027, file_2027);
(2028, file_2028);
(2029, file_2029);
(2030, file_2030);
(2031, file_2031);
(2032, file_2032);
(2033, file_2033);
(2034, file_2034);
(2035, file_2035);
(2036, file_2036);
(2037, file_2037);
(2038, file_2038);
(2039, file_2039);
(2040, file_2040)].
