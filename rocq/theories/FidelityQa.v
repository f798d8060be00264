(** The model run on the catalogue of the quality assurance tests, 1801 events of
    tests/data/completeness_input_test.csv (the same events as
    tests/maximum_magnitude/data/completeness_test_cat.csv): test_completeness.py,
    test_recurrence.py in tests/qa_tests, and
    tests/maximum_magnitude/test_maximum_magnitude.py.  The expected numbers are those of the
    tests.  Each test is evaluated while this file is compiled; the example below it states
    the answer.  The two tests of the moment method that draw random numbers are not run; the
    Kijko test of tests/qa_tests/test_maximum_magnitude.py takes six minutes and was evaluated
    once with the expected outcome but is left out here. *)
From Coq Require Import ZArith Bool Ascii String List.
From Coq Require Import Floats.SpecFloat.
From Verif Require Import Base Ops FloatOps Libm CatUtil PyStr Csv PyFloat EqCatalog SourceModel
  Nrml World CatalogFilter Completeness Recurrence MaxMag Jobs Demo.
Import ListNotations.
Local Open Scope string_scope.
Local Open Scope res_scope.

(** Year, longitude and latitude in thousandths, magnitude in tenths; the quotients are the
    doubles of the decimal texts.  Month and day are not used by these tests, sigmaMw is 0.1
    throughout. *)
Definition qa_rows : list (Z * Z * Z * Z) := [
(1910,26941,38507,65); (1910,22190,37720,65); (1910,28881,33274,60); (1911,21850,32153,59);
(1911,21016,38388,60); (1911,20328,37006,55); (1912,22094,31863,58); (1912,20579,38755,66);
(1913,29132,38825,58); (1914,23063,38510,55); (1914,27273,30099,63); (1914,26936,37327,55);
(1915,25829,30978,64); (1915,28369,39079,59); (1915,29910,38025,55); (1915,29300,39981,60);
(1915,22361,37665,56); (1916,23724,38691,56); (1916,29843,36321,55); (1917,22152,38485,56);
(1917,28254,38370,61); (1918,26347,35928,56); (1919,29635,30582,56); (1919,23072,36742,56);
(1919,27927,36487,63); (1919,24997,30026,61); (1921,28129,36707,55); (1921,24794,39807,57);
(1922,22817,37659,56); (1922,23240,30266,55); (1923,20201,34726,58); (1923,29987,33821,58);
(1923,23040,39739,57); (1924,20427,35007,56); (1924,20618,31833,56); (1924,22087,37555,57);
(1924,21311,33058,56); (1925,22687,37833,57); (1926,28245,39342,63); (1926,20495,32942,58);
(1926,29752,30270,64); (1926,28340,35460,63); (1927,21251,37834,61); (1927,26074,39883,58);
(1928,22372,32869,55); (1929,27337,36975,55); (1930,23914,38457,59); (1930,23445,39428,61);
(1930,29480,34441,58); (1930,25067,31552,55); (1930,27547,39403,63); (1931,25429,37814,59);
(1931,28211,36085,56); (1931,28508,36295,55); (1933,24926,39894,66); (1933,22162,31013,60);
(1933,21697,39860,74); (1934,22948,30843,56); (1935,24598,35150,56); (1935,23924,31608,55);
(1936,24641,32671,59); (1936,23050,31079,56); (1936,20374,31412,57); (1937,22100,32096,55);
(1937,21777,32431,61); (1937,28587,38039,69); (1939,27995,30432,60); (1939,23276,39423,58);
(1939,22535,33842,61); (1940,22880,33207,56); (1940,28361,33285,56); (1940,28054,33573,55);
(1942,25730,38099,57); (1943,23569,30161,65); (1943,22375,30209,56); (1944,22710,33312,58);
(1944,23955,31387,56); (1945,26926,39355,56); (1945,26678,36984,58); (1945,29738,39852,61);
(1946,27515,31385,59); (1947,25325,39434,55); (1948,24714,32330,56); (1949,28179,31397,56);
(1949,24002,37531,59); (1949,27208,34051,55); (1952,24373,31040,57); (1952,23642,30579,60);
(1952,26338,37316,62); (1952,27829,33145,55); (1953,23735,33350,59); (1953,26004,38161,56);
(1954,23883,38932,58); (1955,24086,35535,56); (1956,22436,37911,63); (1956,22051,34158,55);
(1957,24899,37273,66); (1959,27988,39185,60); (1959,25118,38998,63); (1960,29547,30353,46);
(1960,29375,33377,49); (1960,20231,32866,47); (1960,22189,33980,46); (1960,27324,39311,47);
(1960,28907,34508,47); (1960,26431,36797,45); (1960,27226,35154,47); (1960,27618,34688,59);
(1960,22543,37970,45); (1960,23286,30268,56); (1960,27878,36168,45); (1960,22804,39462,48);
(1960,24400,39931,46); (1960,28591,36118,51); (1960,25511,39955,46); (1960,25267,35654,45);
(1960,21893,39479,51); (1961,26189,36583,46); (1961,20931,35724,46); (1961,25817,36246,45);
(1961,24469,35265,45); (1961,28222,34545,46); (1961,20132,36031,48); (1961,29788,38611,52);
(1961,26703,37237,60); (1961,24252,32105,50); (1961,23439,39026,52); (1961,26219,30964,49);
(1961,24054,31627,47); (1961,25972,31765,60); (1961,22760,33624,45); (1961,24498,33141,55);
(1961,21361,34485,46); (1961,23074,37897,49); (1961,29407,38367,49); (1961,27154,31137,46);
(1961,27729,30597,45); (1962,25417,34408,45); (1962,23780,36293,50); (1962,22611,34369,49);
(1962,24823,34176,46); (1962,22300,36642,46); (1962,29762,39251,45); (1962,20919,33642,46);
(1962,24860,32135,46); (1962,26777,38983,45); (1962,28851,35136,46); (1962,26638,37901,48);
(1962,25117,30126,48); (1962,21701,36027,46); (1962,25827,39314,51); (1962,22424,33549,46);
(1962,28331,38812,47); (1962,22558,33613,46); (1962,26354,33034,48); (1962,24428,30669,48);
(1962,20635,37200,46); (1962,29750,30141,49); (1962,25715,36760,57); (1962,25437,37307,47);
(1962,22155,31666,47); (1963,23532,37276,45); (1963,22443,37681,46); (1963,28211,32046,57);
(1963,29730,38497,46); (1963,25307,30500,46); (1963,29373,34866,51); (1963,27720,35770,46);
(1963,28457,32726,46); (1963,26808,35123,45); (1963,22046,30758,50); (1963,29007,39346,47);
(1963,28803,39316,45); (1963,26735,39876,54); (1963,28651,30794,46); (1963,20370,31657,45);
(1963,27478,33580,49); (1963,20907,30847,55); (1963,25406,33754,48); (1963,26179,30090,50);
(1964,22724,33235,45); (1964,27224,39172,48); (1964,23796,38547,48); (1964,21904,32886,45);
(1964,29858,30957,48); (1964,21528,36705,49); (1964,21206,34728,48); (1964,21239,39784,46);
(1964,27543,36240,45); (1964,29953,34066,46); (1964,29007,30841,45); (1964,21928,39689,49);
(1964,25186,33180,49); (1964,20659,33524,46); (1964,23441,36708,52); (1964,29827,31538,45);
(1964,21691,39879,46); (1964,23475,34534,46); (1964,25564,32402,46); (1964,23672,31437,49);
(1964,22452,34762,50); (1964,22343,36170,45); (1964,24730,35036,51); (1964,28979,35289,54);
(1965,23257,39944,51); (1965,28902,33833,45); (1965,20195,31384,47); (1965,27894,30903,48);
(1965,23577,39638,53); (1965,29740,36048,46); (1965,20000,30607,49); (1965,29735,32671,49);
(1965,29794,38907,45); (1965,23522,33822,46); (1965,23547,37186,46); (1965,21825,34185,45);
(1965,25528,35652,49); (1965,29190,30870,52); (1965,20648,30780,52); (1965,21637,38908,50);
(1965,20947,34211,45); (1965,20603,39507,45); (1965,29289,36215,54); (1965,28921,30540,47);
(1965,24093,30076,49); (1965,29849,31322,51); (1965,21756,33314,54); (1965,27808,35848,47);
(1965,29382,34845,45); (1966,24808,30046,48); (1966,27189,33424,47); (1966,21159,35714,53);
(1966,29138,32618,45); (1966,21690,38004,70); (1966,29155,33151,49); (1966,25424,37681,59);
(1966,27156,30088,47); (1966,26499,36941,56); (1966,21589,32034,59); (1966,25193,30096,45);
(1966,21995,36100,48); (1966,25237,30000,48); (1966,25521,37890,45); (1966,27271,30056,45);
(1966,26950,33442,47); (1966,29565,30960,50); (1966,27849,30077,47); (1966,27298,35467,51);
(1967,28968,38649,50); (1967,26993,34415,50); (1967,23199,39381,48); (1967,26582,37534,46);
(1967,20980,34830,45); (1967,21327,34264,46); (1967,21602,37972,46); (1967,21640,33269,47);
(1967,24243,32048,46); (1967,25946,39563,45); (1967,28267,33849,55); (1967,26393,34045,45);
(1967,21520,36422,46); (1967,20661,38903,54); (1967,24794,32465,52); (1968,25649,35074,47);
(1968,28243,37591,49); (1968,27296,38079,50); (1968,24180,34785,46); (1968,24614,38461,50);
(1968,26584,35091,45); (1968,24518,35054,48); (1968,25919,34847,47); (1968,29718,37607,58);
(1968,21360,35555,53); (1968,28847,34743,46); (1968,22125,36113,45); (1968,20056,39895,49);
(1968,26142,39197,49); (1968,23805,38587,47); (1968,28142,35372,45); (1968,24478,39269,51);
(1968,24572,39909,45); (1968,20648,33004,50); (1968,27390,35434,45); (1968,23154,31102,52);
(1969,20400,39289,49); (1969,27432,39467,47); (1969,29937,37559,45); (1969,28699,34026,45);
(1969,27494,38107,52); (1969,24020,33156,45); (1969,27363,38732,45); (1969,25025,30220,52);
(1969,24975,33809,51); (1969,20440,31501,45); (1969,26337,32374,54); (1969,22864,34451,51);
(1969,23024,37338,56); (1969,29196,33843,45); (1969,23585,36813,45); (1969,29721,33225,48);
(1969,26797,34047,45); (1969,28568,30117,48); (1970,22795,39882,52); (1970,24849,35380,46);
(1970,23228,35892,52); (1970,27679,30503,49); (1970,24898,31701,51); (1970,20366,38850,47);
(1970,20907,34370,49); (1970,27822,37063,52); (1970,22750,34237,48); (1970,27694,36990,49);
(1970,27127,30260,47); (1970,23555,39719,48); (1970,27893,35280,47); (1970,23096,34673,60);
(1970,26126,31914,48); (1970,24056,35023,48); (1970,22681,37443,45); (1970,23127,33994,49);
(1970,23044,36544,52); (1970,24091,31657,48); (1970,22840,35019,52); (1970,28149,35311,52);
(1970,21981,31639,46); (1970,24534,35099,50); (1971,27190,34503,46); (1971,22614,36975,47);
(1971,23190,33688,46); (1971,24820,32364,45); (1971,25172,31022,48); (1971,20149,36770,50);
(1971,23551,37354,51); (1971,25477,31514,45); (1971,25488,34810,45); (1971,26132,35605,47);
(1971,25599,31810,48); (1971,27945,30391,53); (1971,23032,38600,53); (1971,24591,39684,46);
(1971,29732,30615,50); (1971,20932,36863,55); (1971,23055,35886,48); (1971,23071,35893,45);
(1971,28756,38367,51); (1971,27701,38925,45); (1972,28561,39703,45); (1972,29599,36189,46);
(1972,27048,33385,51); (1972,29539,33544,48); (1972,29053,36849,53); (1972,29279,37048,49);
(1972,27162,30597,46); (1972,24205,30468,50); (1972,20774,31498,49); (1972,28019,32151,45);
(1972,21817,34650,47); (1972,29155,32581,50); (1972,27087,30218,54); (1972,21513,38453,45);
(1972,26156,31289,55); (1972,24844,38907,60); (1972,25415,37749,50); (1972,25624,32742,52);
(1972,20686,32475,50); (1973,22527,33139,45); (1973,27744,37968,47); (1973,29049,30409,47);
(1973,29506,34431,47); (1973,24463,38051,49); (1973,29759,32564,46); (1973,25465,34793,53);
(1973,21768,30643,54); (1973,24994,37756,50); (1973,25897,39981,46); (1973,24038,32659,47);
(1973,23856,36538,61); (1973,23156,30979,58); (1973,21027,39632,46); (1973,21562,35595,49);
(1973,27258,36709,56); (1973,27924,32516,52); (1973,27843,39499,55); (1973,21420,35168,48);
(1974,28358,34851,51); (1974,29890,35538,45); (1974,29788,36574,45); (1974,21920,38232,45);
(1974,28835,35848,49); (1974,28298,36856,49); (1974,24042,30904,45); (1974,28620,38553,45);
(1974,25629,31677,46); (1974,20349,35425,45); (1974,26322,38034,49); (1974,28705,33976,54);
(1974,24541,35068,48); (1974,22345,32277,47); (1974,24071,31494,47); (1974,22995,38767,53);
(1974,29367,30514,47); (1974,26187,38113,49); (1974,22545,30499,46); (1974,28514,32290,47);
(1974,24790,34408,54); (1974,20600,32719,54); (1974,27003,35716,46); (1974,28368,39541,45);
(1975,29303,35366,53); (1975,25241,36351,45); (1975,28976,36599,48); (1975,23981,36043,47);
(1975,26209,30375,66); (1975,20211,33845,47); (1975,21603,32396,46); (1975,28081,32050,45);
(1975,28359,37839,49); (1975,26828,36413,49); (1975,22244,33032,46); (1975,26127,38335,46);
(1975,26266,37479,45); (1975,26337,39835,48); (1975,26077,31893,54); (1975,25598,37731,63);
(1975,25354,37296,45); (1975,25150,30438,51); (1975,23599,32731,45); (1975,29848,35398,48);
(1975,23782,34021,46); (1975,28706,38706,58); (1975,29793,37462,46); (1976,29507,30433,46);
(1976,29296,32391,46); (1976,28027,38671,53); (1976,21252,34865,63); (1976,24151,36762,54);
(1976,25529,34156,45); (1976,22294,30928,52); (1976,26491,35880,55); (1976,27946,32932,62);
(1976,22650,30084,49); (1976,29560,31224,58); (1976,22952,34947,45); (1976,27077,33632,45);
(1976,24307,32796,46); (1976,26419,34379,46); (1976,25085,30847,45); (1976,21618,39845,46);
(1977,27480,35368,46); (1977,27995,30776,48); (1977,21696,31243,52); (1977,21910,37486,46);
(1977,29297,31960,46); (1977,29586,34731,45); (1977,26838,32941,50); (1977,28809,36159,51);
(1977,23215,33856,47); (1977,26670,37732,50); (1977,26149,33069,49); (1977,27844,35514,51);
(1977,21299,38054,57); (1977,28736,38680,53); (1977,27630,33273,45); (1977,20860,38006,56);
(1977,26451,30343,48); (1977,24468,31873,45); (1977,25816,30743,45); (1977,23556,32625,46);
(1977,21142,35717,45); (1977,26212,38404,56); (1977,20103,32547,46); (1977,25953,37370,47);
(1977,26481,32514,46); (1977,22239,39768,52); (1977,26389,31946,53); (1977,25668,33855,45);
(1977,22086,37428,51); (1978,25217,38873,45); (1978,27447,35863,48); (1978,25929,32679,46);
(1978,27167,38536,46); (1978,24899,34039,45); (1978,23691,37849,45); (1978,20206,30362,47);
(1978,29981,33977,46); (1978,29959,38635,52); (1978,23396,30873,55); (1978,20389,33995,47);
(1978,24818,38533,45); (1978,26422,32417,53); (1978,23028,38905,48); (1978,26013,36306,51);
(1978,22761,37874,47); (1978,20161,31916,54); (1978,20486,34951,47); (1978,20671,35257,54);
(1978,27287,31472,51); (1978,20484,34968,50); (1978,20002,39654,48); (1978,21454,32066,47);
(1978,21617,33281,48); (1978,28501,36669,58); (1978,29673,35616,45); (1978,24071,36599,45);
(1979,24153,39334,64); (1979,29482,30659,74); (1979,21310,37404,50); (1979,24419,31328,52);
(1979,22318,35964,49); (1979,20711,36778,57); (1979,22859,32747,45); (1979,21085,39945,46);
(1979,22202,33904,51); (1979,20946,33862,46); (1979,23498,32686,46); (1979,29877,36122,52);
(1979,25325,33787,48); (1979,22897,32322,46); (1979,27721,34164,46); (1979,26521,36328,49);
(1979,28160,32988,46); (1979,26765,34412,45); (1979,24512,39186,48); (1979,22243,33968,55);
(1979,25164,35772,47); (1979,26162,38361,50); (1979,29057,31369,48); (1980,20620,31519,45);
(1980,23020,33892,48); (1980,20895,33059,50); (1980,21936,35084,51); (1980,29491,38007,45);
(1980,20111,33129,52); (1980,22947,39347,47); (1980,27210,33665,48); (1980,23532,31087,61);
(1980,20154,33127,49); (1980,27309,31433,47); (1980,24406,35985,46); (1980,25339,30254,45);
(1980,25664,30155,45); (1980,27475,31089,52); (1980,21842,37166,46); (1980,29795,34812,49);
(1981,21242,32757,47); (1981,21012,35052,52); (1981,26691,37161,50); (1981,29217,34648,49);
(1981,29427,33993,47); (1981,27857,38821,47); (1981,23075,38973,47); (1981,22223,35362,47);
(1981,24134,32200,48); (1981,25094,32240,46); (1981,24132,33932,48); (1981,25031,36189,45);
(1982,29347,34965,51); (1982,22356,37013,45); (1982,23925,30894,49); (1982,29247,33765,47);
(1982,25327,33472,49); (1982,23744,35853,47); (1982,26551,35761,47); (1982,26505,34705,45);
(1982,27592,39377,45); (1982,27991,32294,49); (1982,23467,37256,46); (1982,24130,39049,47);
(1982,26827,35482,45); (1982,22950,33178,50); (1982,21299,31775,57); (1982,27106,35473,46);
(1982,26548,35971,45); (1982,28576,33768,60); (1982,21550,36228,49); (1982,26411,33170,47);
(1983,23760,38263,52); (1983,21170,37522,56); (1983,26347,37071,51); (1983,20528,35010,46);
(1983,26381,37990,52); (1983,22097,31260,52); (1983,20509,38146,63); (1983,26587,33000,45);
(1983,25527,38332,47); (1983,27815,33156,48); (1983,20685,37444,47); (1983,27761,39443,46);
(1983,25593,36853,47); (1983,25389,34842,45); (1983,26250,33471,58); (1983,27634,34842,55);
(1984,25396,36561,45); (1984,23005,32374,46); (1984,20317,33424,48); (1984,21662,39995,45);
(1984,29987,37670,46); (1984,25169,34415,54); (1984,23261,33324,50); (1984,22334,32273,48);
(1984,22580,37595,46); (1984,23509,39217,50); (1984,21117,36218,45); (1984,25673,39699,55);
(1984,25687,39739,48); (1984,23807,36036,48); (1984,24396,33720,52); (1984,27215,38430,48);
(1984,25581,38969,45); (1984,21733,35268,48); (1984,21286,33945,45); (1984,24815,32447,54);
(1984,26877,30091,59); (1985,21410,39498,45); (1985,23057,30906,45); (1985,21699,31875,45);
(1985,20683,38069,51); (1985,23998,39953,48); (1985,27492,32218,49); (1985,20122,35049,46);
(1985,26518,30320,45); (1985,29524,39480,47); (1985,26161,31377,46); (1985,27069,34993,45);
(1985,26473,30494,60); (1985,29871,33381,47); (1985,21950,33540,49); (1985,27239,39171,47);
(1985,26467,37244,45); (1985,28892,35334,48); (1985,22517,34675,47); (1986,25828,31461,46);
(1986,25438,34799,46); (1986,29018,31060,46); (1986,20398,37393,48); (1986,21502,39786,47);
(1986,21122,30549,46); (1986,26504,32526,59); (1986,25447,39753,46); (1986,20941,30085,47);
(1986,29282,35738,53); (1986,24073,33087,58); (1986,22012,34598,48); (1986,22734,34724,55);
(1986,27914,32438,48); (1986,27218,30265,45); (1986,24606,33356,46); (1986,23573,37461,51);
(1986,22425,30767,46); (1986,27234,39772,45); (1986,22908,37038,45); (1986,24196,33383,47);
(1986,24828,37861,45); (1987,27698,34624,53); (1987,29655,34876,48); (1987,26502,39712,45);
(1987,22072,33897,49); (1987,27269,30991,48); (1987,24597,34947,45); (1987,29830,37033,47);
(1987,23965,32625,47); (1987,28968,32251,50); (1987,21166,32553,48); (1987,20050,33179,56);
(1987,26276,34461,49); (1987,22361,36122,53); (1987,22139,38932,47); (1987,23946,31964,47);
(1987,21631,38676,47); (1987,26333,33249,45); (1987,20971,31970,54); (1987,20355,34586,45);
(1987,20514,33414,46); (1988,28083,37451,46); (1988,27480,38895,58); (1988,28876,34778,45);
(1988,24177,34482,48); (1988,24981,39347,47); (1988,20051,35017,48); (1988,26599,31312,50);
(1988,29353,34890,46); (1988,24190,36495,50); (1988,29375,37507,57); (1988,22970,38465,46);
(1988,24824,36012,50); (1988,25665,35006,45); (1988,22212,37952,51); (1988,24679,39028,48);
(1988,28370,30216,46); (1988,22592,35254,49); (1988,24341,33557,55); (1988,20044,35230,46);
(1988,25608,36530,45); (1988,26956,30654,45); (1988,29274,31061,49); (1988,20965,38296,49);
(1988,24038,36922,50); (1988,26391,30809,48); (1988,24293,35625,62); (1988,27125,34102,48);
(1989,24371,31922,45); (1989,29912,35018,48); (1989,22463,38129,49); (1989,29126,39911,45);
(1989,24299,35107,53); (1989,21048,34410,50); (1989,27225,38999,47); (1989,22453,39913,48);
(1989,28789,38806,56); (1989,25257,39421,47); (1989,20905,31796,48); (1989,25542,34441,46);
(1989,28481,38055,47); (1989,22392,35864,48); (1989,27633,30418,45); (1989,20637,35656,45);
(1989,29110,32548,46); (1990,26674,38564,43); (1990,22558,35865,44); (1990,21549,36062,42);
(1990,20314,38187,42); (1990,23090,31408,40); (1990,25857,35580,43); (1990,23897,36602,41);
(1990,29150,35711,45); (1990,26863,37180,49); (1990,29884,36891,40); (1990,23015,33980,43);
(1990,24400,33961,43); (1990,22388,30691,41); (1990,20711,37550,41); (1990,21043,33474,51);
(1990,26849,33857,41); (1990,27875,31300,41); (1990,27559,37464,41); (1990,23744,32191,41);
(1990,23446,35408,42); (1990,22022,37727,41); (1990,20734,35545,45); (1990,21010,30436,44);
(1990,24208,30382,41); (1990,26576,39276,43); (1990,26084,35911,42); (1990,26876,39985,43);
(1990,29263,31374,40); (1990,28415,30044,42); (1990,28892,30178,62); (1990,24823,34162,44);
(1990,27814,31171,40); (1990,27512,39329,41); (1990,27732,30594,41); (1990,21851,31943,43);
(1990,23992,33163,41); (1990,25525,32730,43); (1990,23997,31660,41); (1990,29349,33876,45);
(1990,21327,37436,47); (1990,22332,39011,45); (1990,26485,34244,40); (1990,26466,33169,42);
(1990,22478,39593,43); (1990,23825,37596,45); (1990,22005,34438,45); (1990,27719,30364,40);
(1990,25607,35491,42); (1991,28333,39022,42); (1991,29340,34119,41); (1991,24076,35712,44);
(1991,29876,30235,41); (1991,23337,33581,40); (1991,23566,36139,40); (1991,21897,39792,45);
(1991,20658,38302,40); (1991,25563,39211,60); (1991,28436,36346,47); (1991,20991,38307,42);
(1991,29081,36725,44); (1991,21927,34028,41); (1991,23262,36662,44); (1991,29969,34218,44);
(1991,20468,32305,44); (1991,26992,37015,43); (1991,20021,38012,42); (1991,26712,35945,40);
(1991,20909,30933,47); (1991,26902,31216,48); (1991,21061,36779,46); (1991,20948,37562,40);
(1991,22628,30741,42); (1991,26259,32981,46); (1991,29591,39301,40); (1991,26942,35626,50);
(1991,29037,31590,44); (1991,28239,34402,41); (1991,28330,31795,44); (1991,28361,30172,42);
(1991,27850,39173,45); (1991,21398,35946,41); (1991,26815,38287,43); (1991,21299,33620,41);
(1991,25894,38400,44); (1991,26240,38340,51); (1991,27535,37218,44); (1991,22459,38670,48);
(1991,21503,38878,41); (1991,27448,37301,42); (1991,21866,33927,47); (1991,27351,38721,45);
(1991,29131,32128,42); (1992,27127,32385,44); (1992,22312,31060,50); (1992,28824,31166,40);
(1992,27361,31464,42); (1992,25229,30642,48); (1992,29933,31125,41); (1992,24704,32719,46);
(1992,27287,34484,45); (1992,28312,36369,43); (1992,23259,33929,48); (1992,27713,37487,49);
(1992,28897,32597,40); (1992,24730,39767,46); (1992,26519,33740,42); (1992,24232,33832,42);
(1992,21335,34282,42); (1992,25733,38986,45); (1992,20881,30822,41); (1992,21304,32011,42);
(1992,26628,31653,40); (1992,20171,36607,42); (1992,25660,30593,41); (1992,22652,34558,48);
(1992,29681,37900,44); (1992,20571,39260,40); (1992,20331,36271,40); (1992,22420,36536,47);
(1992,26754,31145,40); (1992,24756,39377,45); (1992,29905,38678,41); (1992,20635,36757,43);
(1992,20359,32399,47); (1992,27172,33561,43); (1992,22647,32314,51); (1992,23941,34169,42);
(1992,22989,30920,41); (1992,22501,34634,49); (1992,26918,31890,72); (1992,28590,32353,63);
(1992,28674,31363,46); (1992,28857,34551,41); (1992,24582,37914,41); (1992,25314,38842,41);
(1992,28984,39960,51); (1992,22214,30689,41); (1992,25701,36865,47); (1992,25582,34986,44);
(1992,27864,34986,41); (1992,25135,34260,42); (1992,26552,33571,42); (1992,24370,37052,44);
(1993,26746,37706,40); (1993,28459,34666,46); (1993,20386,33854,40); (1993,25691,35467,46);
(1993,28197,38859,43); (1993,20877,39214,49); (1993,23359,30651,43); (1993,20019,37542,47);
(1993,26598,31013,41); (1993,26978,39579,42); (1993,23155,37547,70); (1993,29197,30515,47);
(1993,21979,36610,44); (1993,21309,31278,43); (1993,21769,38345,42); (1993,28967,38997,50);
(1993,21517,31505,45); (1993,22894,38346,47); (1993,26012,34549,40); (1993,26041,35885,45);
(1993,21971,35446,45); (1993,22505,38557,46); (1993,21465,36975,45); (1993,23961,32059,46);
(1993,28397,35927,41); (1993,20965,36750,43); (1993,20693,36240,41); (1993,29684,31806,41);
(1993,25394,34492,42); (1993,25247,37915,42); (1993,27557,39070,52); (1993,25742,31379,41);
(1993,24946,32859,41); (1993,27729,38002,41); (1993,25283,39266,59); (1993,25618,38277,41);
(1993,29645,30504,46); (1993,23895,38729,41); (1993,28697,32172,45); (1993,23170,31181,49);
(1993,26566,38048,43); (1993,29267,37506,65); (1993,25429,36487,40); (1993,29980,39674,46);
(1993,24829,35482,54); (1993,27610,38022,55); (1993,29971,37853,41); (1993,22644,32542,40);
(1993,27141,31798,42); (1993,24503,33443,54); (1993,23715,35889,46); (1993,21668,34327,43);
(1993,28303,37125,46); (1993,23004,32372,41); (1993,22688,39887,59); (1993,29328,37944,40);
(1993,23466,38586,48); (1993,25516,30460,47); (1993,24965,39072,44); (1993,24464,31328,48);
(1993,22071,37376,50); (1993,26173,30396,44); (1994,29733,36350,41); (1994,25787,32765,41);
(1994,27825,33684,41); (1994,20857,30728,41); (1994,21054,31407,40); (1994,28431,37710,43);
(1994,23587,39278,46); (1994,23564,31463,47); (1994,24981,39889,40); (1994,20271,35729,42);
(1994,21698,34938,40); (1994,26125,34722,42); (1994,24107,35513,40); (1994,21009,30052,45);
(1994,29075,39514,41); (1994,20635,35989,42); (1994,21009,36364,46); (1994,28221,35760,49);
(1994,22336,30056,42); (1994,24084,36887,45); (1994,24767,32669,44); (1994,24884,37283,41);
(1994,27599,31248,40); (1994,23111,33991,43); (1994,25604,31125,44); (1994,21400,37854,41);
(1994,27662,36335,42); (1994,29795,39217,45); (1994,24611,38297,43); (1994,25392,34326,43);
(1994,29987,35075,51); (1994,21765,39815,55); (1994,27486,33016,45); (1994,22699,35598,42);
(1994,21802,32704,43); (1994,25704,32867,43); (1994,22517,36533,48); (1994,27080,34814,46);
(1994,28306,32133,41); (1994,25324,39440,41); (1994,27961,37444,43); (1994,29914,38576,40);
(1994,29113,32736,42); (1994,27169,38271,40); (1994,24681,37002,40); (1994,22718,34151,41);
(1995,24630,31829,45); (1995,25494,33319,42); (1995,20011,38113,43); (1995,26847,39916,40);
(1995,24181,36267,43); (1995,27355,39993,40); (1995,22294,33904,46); (1995,23052,38512,54);
(1995,24181,33382,42); (1995,29582,33698,40); (1995,28236,32417,42); (1995,21848,34436,47);
(1995,29975,38706,46); (1995,21330,34006,49); (1995,29732,38115,43); (1995,25774,32334,50);
(1995,20654,38389,41); (1995,27893,32478,42); (1995,25956,34190,53); (1995,26731,39008,44);
(1995,21895,37368,41); (1995,26367,37508,41); (1995,29228,36698,45); (1995,23024,30715,41);
(1995,23964,30996,49); (1995,29420,35392,44); (1995,23766,38790,44); (1995,29053,32207,46);
(1995,24814,31355,43); (1995,20601,30074,41); (1995,24797,33693,46); (1995,25901,30275,43);
(1995,23060,36985,41); (1995,20572,33429,45); (1995,27004,38781,45); (1995,29502,32301,42);
(1995,28278,33211,40); (1995,20082,32457,40); (1995,24930,31567,47); (1995,21986,39010,43);
(1995,27024,30709,47); (1995,23479,32148,50); (1995,20566,30250,49); (1995,20025,32807,49);
(1995,27724,31115,41); (1995,25902,38796,40); (1995,20602,34809,43); (1995,24301,30348,44);
(1995,27506,36757,42); (1995,29354,38400,41); (1995,22287,30996,44); (1995,22718,33094,49);
(1995,25044,38844,51); (1995,23664,31148,43); (1995,22179,33857,60); (1995,24804,33706,55);
(1995,28717,36621,50); (1995,29381,34688,42); (1995,24788,32918,42); (1995,26276,32847,54);
(1995,24904,39228,40); (1995,22393,30085,46); (1995,23135,33822,42); (1995,27834,35878,45);
(1996,28742,39526,42); (1996,22448,38976,44); (1996,23280,37334,41); (1996,25341,31834,49);
(1996,25467,32229,42); (1996,25113,39759,40); (1996,25019,33182,43); (1996,21558,39452,50);
(1996,26429,31710,43); (1996,24443,35267,50); (1996,24431,30872,48); (1996,29440,31839,41);
(1996,29553,36670,46); (1996,25967,34341,42); (1996,23698,35286,40); (1996,29355,37246,51);
(1996,25818,35044,45); (1996,28954,39264,42); (1996,20705,31281,41); (1996,24099,33832,48);
(1996,27287,30984,40); (1996,20063,35236,47); (1996,28423,37898,43); (1996,23850,34892,45);
(1996,26053,31874,40); (1996,27187,39429,40); (1996,20851,35424,46); (1996,20473,34359,44);
(1996,28282,35344,48); (1996,25002,39986,42); (1996,28003,35590,45); (1996,23517,31490,41);
(1996,25381,38754,44); (1996,24945,30495,41); (1996,27891,39690,46); (1996,22370,32040,44);
(1996,28733,37561,43); (1996,22414,35150,44); (1996,26019,36720,43); (1996,29971,31105,48);
(1996,29811,39842,45); (1996,29773,36745,41); (1996,21341,36249,41); (1996,23088,36674,44);
(1996,25199,36999,41); (1996,25416,36795,47); (1996,28024,35424,40); (1996,27779,39487,42);
(1996,21527,39786,44); (1997,22108,33569,45); (1997,25175,31646,44); (1997,25264,32718,42);
(1997,29111,34430,43); (1997,23762,35875,44); (1997,20046,36645,40); (1997,28099,30721,41);
(1997,22987,39806,44); (1997,22483,39873,41); (1997,22867,33651,41); (1997,22016,37693,46);
(1997,20334,30872,44); (1997,27669,34390,40); (1997,22394,34982,53); (1997,23956,31429,42);
(1997,20798,39677,41); (1997,23162,34114,41); (1997,28840,38909,40); (1997,25721,39342,47);
(1997,22799,37513,64); (1997,23027,35704,45); (1997,21253,31989,41); (1997,21410,38459,42);
(1997,28394,38608,41); (1997,22506,37182,41); (1997,25535,35259,45); (1997,21291,34832,40);
(1997,26347,39601,43); (1997,27044,35373,40); (1997,24251,36872,44); (1997,24409,31965,44);
(1997,24715,32956,46); (1997,28242,30194,41); (1997,26416,39361,40); (1997,26858,35310,40);
(1997,22552,32488,46); (1997,20891,36389,42); (1997,20011,37223,43); (1997,24254,36724,41);
(1997,20048,30324,42); (1997,28734,38883,42); (1997,26480,35622,40); (1997,24793,39569,42);
(1997,20184,38126,41); (1997,20691,30343,43); (1997,20964,33814,50); (1997,22023,31262,42);
(1997,21081,38764,46); (1997,21577,37384,47); (1997,26761,30564,53); (1997,23057,36483,46);
(1997,25760,39837,41); (1997,28314,35123,46); (1997,21986,33622,44); (1997,27127,37614,49);
(1997,23700,31576,43); (1997,23250,35021,41); (1997,24217,35058,42); (1997,25665,30450,41);
(1998,21240,35312,43); (1998,27083,31168,41); (1998,29166,31909,43); (1998,21419,39247,43);
(1998,24584,33162,40); (1998,25446,31723,47); (1998,23242,35588,42); (1998,26214,36567,40);
(1998,22527,36529,42); (1998,28602,35116,48); (1998,26335,36798,44); (1998,25553,37473,46);
(1998,25299,37539,45); (1998,24227,36684,40); (1998,29314,37788,41); (1998,29005,32431,44);
(1998,29331,38799,49); (1998,22649,39739,42); (1998,25402,35860,52); (1998,29927,35150,48);
(1998,25722,30220,44); (1998,23023,32368,42); (1998,23763,31344,47); (1998,29945,39460,47);
(1998,22431,33340,42); (1998,20380,30151,44); (1998,26329,30983,43); (1998,29561,35152,40);
(1998,28510,36791,41); (1998,28418,30124,43); (1998,25097,31852,46); (1998,26013,35501,50);
(1998,29509,32693,43); (1998,20635,32978,44); (1998,22056,39171,43); (1998,21566,38519,50);
(1998,23940,30900,47); (1998,23589,38976,40); (1998,23903,31860,40); (1998,26155,30216,63);
(1998,21388,38969,41); (1998,29307,32937,61); (1998,20188,37234,47); (1998,29804,37875,42);
(1998,24173,36864,40); (1998,29297,33460,41); (1998,20575,30079,40); (1999,23668,37862,44);
(1999,28311,34313,48); (1999,28088,39637,41); (1999,24889,35654,44); (1999,20780,32232,42);
(1999,20019,36436,50); (1999,27074,30309,56); (1999,24038,36371,47); (1999,26994,30747,44);
(1999,25063,34023,46); (1999,28984,39576,41); (1999,26648,38456,42); (1999,25845,39339,41);
(1999,28869,34175,45); (1999,28876,30378,48); (1999,20010,32196,41); (1999,22640,32943,42);
(1999,29042,35320,45); (1999,24610,37812,43); (1999,21298,31315,41); (1999,26486,34580,48);
(1999,29878,36845,45); (1999,22159,34438,42); (1999,24473,37262,45); (1999,21678,34785,42);
(1999,21945,36991,41); (1999,25676,30993,42); (1999,25343,38178,47); (1999,20072,36702,42);
(1999,23315,32691,44); (1999,21893,35017,42); (1999,22451,35874,50); (1999,22179,32240,46);
(1999,27348,33853,45); (1999,25631,30985,45); (1999,20396,35575,43); (1999,21725,34851,43);
(1999,23029,32546,42); (1999,24219,35057,41); (1999,21683,38937,52); (1999,27788,39080,43);
(1999,26963,30845,44); (1999,23593,31365,44); (1999,23218,30313,47); (1999,25950,38803,43);
(1999,21752,39101,44); (1999,27506,30028,42); (1999,28746,38815,45); (1999,21341,31494,42);
(1999,26649,34348,41); (1999,29350,36826,49); (1999,26839,33262,41); (1999,20255,39430,41);
(1999,23688,31227,58); (1999,22096,32995,40); (1999,29147,38042,49); (1999,27401,38390,40);
(2000,26277,36902,48); (2000,21837,36906,45); (2000,29843,37798,50); (2000,23636,30406,44);
(2000,28071,31957,40); (2000,21949,36953,61); (2000,22624,39695,42); (2000,28762,31181,45);
(2000,20655,35246,40); (2000,21513,37976,43); (2000,29153,39450,45); (2000,29839,38561,42);
(2000,28258,34775,46); (2000,22991,30114,52); (2000,23988,35992,46); (2000,21772,34598,43);
(2000,29602,31941,44); (2000,27237,39567,45); (2000,23227,38954,41); (2000,24737,39856,59);
(2000,25015,30009,42); (2000,29706,38186,44); (2000,27768,36915,42); (2000,24794,34119,42);
(2000,27626,31092,44); (2000,20113,31724,41); (2000,21377,30124,40); (2000,20973,38643,59);
(2000,21968,30888,43); (2000,24073,32350,40); (2000,24168,39877,42); (2000,26573,32404,42);
(2000,27968,34924,42); (2000,24549,35982,50); (2000,21689,30445,46); (2000,29115,33621,46);
(2000,27629,33114,43); (2000,21902,32284,40); (2000,27539,35796,43); (2000,24072,32196,41);
(2000,21472,38880,43); (2000,24231,39371,47); (2000,23534,39805,40); (2000,26101,30363,41);
(2000,20781,37815,43); (2000,26715,37056,41); (2000,21831,31456,48); (2000,29865,32608,44);
(2000,23063,30908,41); (2000,23767,33098,61); (2000,28919,31683,42); (2000,21922,35943,42);
(2000,20221,30524,46); (2000,27314,34749,44); (2000,20025,39149,46); (2000,24087,34433,41);
(2001,28257,34744,42); (2001,25637,39542,46); (2001,27196,34878,41); (2001,27820,37977,53);
(2001,25644,35591,44); (2001,29603,39113,44); (2001,21831,39650,44); (2001,27216,34016,53);
(2001,21500,31082,49); (2001,29731,37651,52); (2001,28739,35170,45); (2001,26972,39090,40);
(2001,20986,33323,43); (2001,27625,32249,49); (2001,20295,39080,47); (2001,20499,31348,41);
(2001,29443,32258,50); (2001,22172,34299,45); (2001,29651,37257,44); (2001,29304,34097,42);
(2001,25560,30545,46); (2001,26600,36186,41); (2001,23946,36074,49); (2001,29021,35460,40);
(2001,23237,31782,42); (2001,29911,33060,40); (2001,23228,34785,41); (2001,23927,36034,41);
(2001,22029,30409,45); (2001,21915,39745,43); (2001,28144,36706,50); (2001,24524,35026,45);
(2001,24803,30214,42); (2001,24369,37662,41); (2001,21183,37274,42); (2001,24036,32697,45);
(2001,27405,39213,51); (2001,25391,32568,41); (2001,20199,33149,44); (2001,28026,39697,40);
(2001,21348,37421,70); (2001,29319,32796,46); (2001,29002,32065,41); (2001,21107,35110,43);
(2001,21587,37896,47); (2001,23364,31338,45); (2001,23092,32234,42); (2001,27954,35208,46);
(2001,23694,33270,40); (2001,28352,30114,45); (2001,21068,39365,46); (2001,27760,32077,41);
(2001,20751,36861,41); (2001,23422,36761,42); (2001,23960,30383,41); (2001,26721,31359,40);
(2001,20173,34422,48); (2001,20756,30852,44); (2001,21881,34268,40); (2001,29647,30884,44);
(2001,26625,33773,41); (2002,22568,30242,50); (2002,26355,35924,42); (2002,22736,35763,43);
(2002,22445,36374,44); (2002,27580,33607,40); (2002,20977,32138,48); (2002,28773,30675,43);
(2002,28871,33769,45); (2002,25913,34158,41); (2002,29033,35771,41); (2002,27513,32093,42);
(2002,26502,36208,40); (2002,28623,37777,46); (2002,28769,33612,46); (2002,26559,34583,42);
(2002,27131,32914,46); (2002,25151,35493,40); (2002,23235,34819,41); (2002,23843,39400,41);
(2002,23426,33638,40); (2002,22575,38267,40); (2002,23453,30937,45); (2002,29317,32830,50);
(2002,21362,34370,50); (2002,24727,31592,40); (2002,24478,32602,46); (2002,28962,33624,41);
(2002,25206,39862,44); (2002,22793,37651,41); (2002,23842,31935,41); (2002,26387,32628,54);
(2002,29027,32034,41); (2002,26569,30523,42); (2002,22334,39164,46); (2002,26197,34728,41);
(2002,23864,38811,56); (2002,28345,34171,42); (2002,29306,37655,45); (2002,20652,33179,43);
(2002,22188,36650,40); (2002,21285,33815,45); (2002,25980,30840,45); (2002,23561,35909,40);
(2002,21351,39759,41); (2002,24430,36410,46); (2002,23483,35603,52); (2002,26628,35157,42);
(2002,24798,37714,46); (2002,23259,38620,42); (2002,22226,31912,47); (2002,28888,32518,41);
(2002,29785,34310,42); (2003,26880,35459,42); (2003,22373,39341,45); (2003,22890,31370,42);
(2003,26897,36048,53); (2003,23163,39741,47); (2003,27754,37749,40); (2003,25487,35478,50);
(2003,26330,31602,45); (2003,27545,33868,42); (2003,28188,35891,45); (2003,26370,30174,42);
(2003,20164,30061,46); (2003,29715,35399,42); (2003,24094,38203,51); (2003,24185,34243,40);
(2003,20413,30267,41); (2003,25045,30495,42); (2003,20115,35386,44); (2003,29290,35934,40);
(2003,28541,30080,47); (2003,27674,35423,45); (2003,28560,38384,47); (2003,23221,39125,48);
(2003,22425,31524,43); (2003,29419,39086,41); (2003,21920,30701,45); (2003,22433,34874,43);
(2003,21027,39521,41); (2003,20639,38916,40); (2003,21755,33454,41); (2003,23612,33224,43);
(2003,20393,34872,41); (2003,24565,36972,53); (2003,24689,39958,52); (2003,27627,33439,42);
(2003,26703,30681,54); (2003,26002,32126,44); (2003,29374,38521,46); (2003,24949,36394,42);
(2003,22256,34063,40); (2003,23262,33590,50); (2003,23416,33271,43); (2003,27466,35152,41);
(2003,23936,38730,45); (2003,22941,32450,44); (2003,25760,35335,45); (2003,24385,35951,42);
(2003,20670,34124,41); (2003,20891,31003,42); (2003,25296,39562,47); (2003,28475,38198,40);
(2003,25802,39644,41); (2003,27960,36258,44); (2003,25812,36310,42); (2003,29600,34437,51);
(2003,24783,38178,42); (2003,25655,31057,41); (2003,28339,34739,41); (2003,24515,30623,47);
(2003,21159,33201,64); (2003,25820,36276,49); (2003,27498,32442,53); (2003,26808,35082,45);
(2003,20321,34741,40); (2003,25800,32680,43); (2003,25922,31546,41); (2003,22672,34286,41);
(2003,24671,35543,42); (2003,26074,36290,40); (2003,20566,36825,54); (2003,20076,32890,55);
(2003,23039,34124,47); (2003,29297,37414,48); (2003,20531,32275,42); (2003,23520,31132,43);
(2003,25694,35910,42); (2003,20838,37022,40); (2004,24059,32009,44); (2004,21444,30962,54);
(2004,21942,31918,45); (2004,23662,30649,41); (2004,25616,33229,55); (2004,20535,33084,45);
(2004,28534,38279,48); (2004,25827,30939,44); (2004,25846,31920,43); (2004,20435,34233,43);
(2004,24035,33213,43); (2004,20575,32682,45); (2004,23349,34083,45); (2004,24438,38252,40);
(2004,23559,35548,44); (2004,26477,37180,59); (2004,26954,34195,40); (2004,27650,38251,45);
(2004,22830,34623,46); (2004,21422,30289,41); (2004,22794,39587,46); (2004,26497,30145,51);
(2004,26766,32976,49); (2004,26243,33442,43); (2004,24363,32201,45); (2004,29385,33453,43);
(2004,29959,36594,40); (2004,27640,39739,40); (2004,23898,30257,47); (2004,20530,33325,41);
(2004,24079,39125,42); (2004,21835,32903,47); (2004,21054,30594,46); (2004,24169,36162,41);
(2004,23453,32608,41); (2004,21042,38111,68); (2004,28380,30477,45); (2004,25585,31408,49);
(2004,29635,30116,43); (2004,29560,33128,42); (2004,24496,34428,43); (2004,23614,38230,41);
(2004,25131,35555,48); (2004,22545,30592,40); (2004,24062,37965,44); (2004,25942,32005,44);
(2004,24894,32448,41); (2004,25694,38221,41); (2004,26807,32018,43); (2004,26128,38726,41);
(2004,26266,37076,53); (2005,21746,34734,43); (2005,23953,36912,47); (2005,22591,31881,44);
(2005,20294,35023,44); (2005,29729,38270,41); (2005,25038,31719,40); (2005,23560,33592,51);
(2005,27628,38074,41); (2005,25295,39137,40); (2005,29140,34817,42); (2005,26161,35627,42);
(2005,21389,30974,43); (2005,28086,36040,41); (2005,23455,33299,41); (2005,28193,30267,42);
(2005,20843,38705,40); (2005,27214,35793,43); (2005,29906,31790,40); (2005,21258,35834,47);
(2005,28818,34208,40); (2005,25503,32550,54); (2005,22515,32232,43); (2005,28500,39848,45);
(2005,24587,35875,42); (2005,29381,36056,58); (2005,25421,39716,43); (2005,21305,39765,45);
(2005,26429,38865,45); (2005,23224,39665,43); (2005,29355,32206,41); (2005,28064,31713,40);
(2005,21069,30604,47); (2005,29775,32672,41); (2005,22720,33385,41); (2005,20599,31382,41);
(2005,22660,35185,42); (2005,29022,34384,58); (2005,21072,38725,41); (2005,25913,36852,42);
(2005,22863,31807,48); (2005,28207,30569,43); (2005,24436,37929,54); (2005,26169,30667,57);
(2005,21139,38187,43); (2005,23176,34323,41); (2005,27567,36771,41); (2005,22354,30300,41);
(2005,20376,30963,48); (2005,21431,37253,64); (2006,26499,38846,43); (2006,23258,33474,43);
(2006,23759,30993,42); (2006,28639,36050,40); (2006,21838,34130,40); (2006,20025,35793,45);
(2006,24838,39227,46); (2006,23891,37127,44); (2006,21296,33492,42); (2006,25398,34356,54);
(2006,27407,39055,51); (2006,28114,36961,50); (2006,21793,34441,41); (2006,21548,36696,41);
(2006,24443,33092,41); (2006,25163,36077,50); (2006,23172,33805,41); (2006,27292,36919,47);
(2006,27677,34333,41); (2006,26369,31124,42); (2006,22370,35350,42); (2006,23599,34028,53);
(2006,28491,39505,40); (2006,25582,38195,42); (2006,21219,35012,44); (2006,26127,39106,50);
(2006,23946,36030,48); (2006,29643,30668,47); (2006,22160,36856,45); (2006,22803,30773,43);
(2006,24701,33195,48); (2006,24085,36152,40); (2006,26250,33564,40); (2006,24825,33593,41);
(2006,20529,33117,42); (2006,21312,36227,40); (2006,25217,34952,41); (2006,21501,31821,43);
(2006,21781,36830,52); (2006,28768,33681,45); (2006,29156,33737,50); (2006,29266,36639,44);
(2006,22344,30117,42); (2007,29619,35247,46); (2007,21128,37568,40); (2007,29943,32925,45);
(2007,26479,30138,58); (2007,20629,30460,42); (2007,29482,36231,46); (2007,25411,31598,49);
(2007,22985,36650,42); (2007,23338,33555,41); (2007,21458,36078,42); (2007,24813,33736,46);
(2007,20500,35087,53); (2007,23762,38451,43); (2007,25963,32995,42); (2007,26697,36304,48);
(2007,21477,34554,40); (2007,20104,38008,53); (2007,27939,36221,42); (2007,25054,32021,42);
(2007,20054,34623,41); (2007,23362,35543,55); (2007,20063,32413,45); (2007,28355,39059,44);
(2007,20274,39951,55); (2007,27302,33437,49); (2007,23512,37111,41); (2007,21532,32775,46);
(2007,29439,37756,42); (2007,21756,35502,47); (2007,22522,33146,46); (2007,25365,39491,46);
(2007,29488,30006,46); (2007,24743,36881,41); (2007,25727,30549,45); (2007,28260,37927,48);
(2007,22982,31841,42); (2007,27683,32828,44); (2007,26337,32897,45); (2007,23735,30977,44);
(2007,24602,30740,45); (2007,29817,35151,45); (2007,25952,32144,43); (2007,25858,33048,41);
(2007,29082,35662,44); (2007,23159,37619,49); (2007,25325,32150,41); (2007,26541,33719,42);
(2007,29680,39252,41); (2007,21296,36323,44); (2007,26712,30544,45); (2007,25255,37476,41);
(2007,29015,34391,41); (2007,29545,37423,40); (2007,20492,36931,41); (2007,25966,36898,41);
(2008,23434,31614,41); (2008,22212,33238,44); (2008,20433,34389,44); (2008,25741,37535,47);
(2008,24958,37816,40); (2008,25915,37016,44); (2008,23874,36616,47); (2008,29492,30893,49);
(2008,27527,30027,42); (2008,29783,38583,43); (2008,26101,36863,40); (2008,29705,33707,48);
(2008,20092,34729,48); (2008,20570,36669,48); (2008,24478,30356,42); (2008,26158,31378,43);
(2008,24555,33950,42); (2008,20040,31300,41); (2008,22529,32541,41); (2008,27700,36047,45);
(2008,24108,30330,40); (2008,26071,37204,41); (2008,29915,35222,40); (2008,29662,37974,46);
(2008,24676,38642,40); (2008,28052,34942,44); (2008,20312,39873,49); (2008,28278,36823,41);
(2008,24246,33748,40); (2008,24896,30697,40); (2008,22378,30351,55); (2008,25359,34038,49);
(2008,26951,31386,41); (2008,23634,36828,44); (2008,24468,32451,47); (2008,20844,31996,40);
(2008,27001,31747,42); (2008,25076,32079,41); (2008,21808,31227,43); (2008,24103,36535,43);
(2008,24685,30964,44); (2008,23012,35311,50); (2008,26789,33297,44); (2008,27527,30272,48);
(2008,28044,39598,41); (2008,27002,32681,48); (2008,22873,36867,44); (2008,20107,30454,44);
(2008,21009,37274,44); (2008,20360,31387,42); (2008,20772,30043,40); (2008,21115,30764,43);
(2008,27866,39938,51); (2008,28947,38702,45); (2008,28704,37828,48); (2008,20977,32136,47);
(2008,29609,30586,50); (2008,24675,34947,45); (2008,23320,38663,43); (2008,20201,37930,41);
(2008,24096,30008,41); (2009,25040,35208,42); (2009,26004,37511,48); (2009,21657,33777,46);
(2009,24390,30781,49); (2009,26881,37311,40); (2009,25216,37575,45); (2009,24726,39179,48);
(2009,26835,36928,54); (2009,21726,31502,45); (2009,27542,33882,42); (2009,22127,38489,41);
(2009,23592,35393,45); (2009,23595,31024,48); (2009,20503,34451,41); (2009,25950,35434,47);
(2009,25495,31036,43); (2009,22084,32993,43); (2009,27495,32619,41); (2009,25438,37224,40);
(2009,29939,31514,46); (2009,29572,30494,43); (2009,20873,31099,43); (2009,23463,37740,42);
(2009,27123,38940,40); (2009,20640,31893,43); (2009,27842,31430,43); (2009,28852,38080,46);
(2009,21823,37338,42); (2009,22521,32244,47); (2009,27932,33089,43); (2009,29061,37019,48);
(2009,28173,39765,41); (2009,25306,32426,47); (2009,22432,36427,43); (2009,26353,38370,41);
(2009,21828,32118,41); (2009,28778,37554,43); (2009,28901,39589,41); (2009,28807,30365,41);
(2009,26046,32861,53); (2009,25545,30415,45); (2009,27945,35600,42); (2009,20802,33161,46);
(2009,21593,31834,42); (2009,22409,31124,40); (2009,29012,39527,42); (2009,21868,34928,41);
(2009,20196,36567,48); (2009,20095,39690,44); (2009,20054,39854,48); (2009,23481,38050,52);
(2009,28959,34664,41)]%Z.

Definition qa_event (r : Z * Z * Z * Z) : event FL :=
  let '(y, lon, lat, mw) := r in
  @mkEvent FL (@ofZ FL y) (@ofZ FL 1) (@ofZ FL 1) (@lit FL lon 1000) (@lit FL lat 1000)
    (@lit FL mw 10) (@lit FL 1 10).
Definition qa_catalogue : list (event FL) := Eval vm_compute in map qa_event qa_rows.

(** tests/qa_tests/test_completeness.py with tests/data/config_stepp.yml. *)
Definition qa_stepp_expected : list (Z * Z) := [(1994,40); (1994,41); (1994,42); (1994,43); (1994,44); (1964,45); (1964,46); (1964,47); (1964,48); (1964,49); (1964,50); (1964,51); (1964,52); (1964,53); (1964,54); (1919,55); (1919,56); (1919,57); (1919,58); (1919,59); (1919,60); (1919,61); (1919,62); (1919,63); (1919,64); (1919,65); (1919,66); (1919,67); (1919,68); (1919,69); (1919,70); (1919,71); (1919,72); (1919,73)]%Z.
Definition qa_test_stepp : bool := Eval vm_compute in
  gives (@stepp_analysis FL (map ev_year qa_catalogue) (map ev_mw qa_catalogue)
           (fl "0.1") (fl "5") (fl "0.2") true)
    (all2 (fun e r => close (fst r) (@ofZ FL (fst e)) && close (snd r) (@lit FL (snd e) 10))
       qa_stepp_expected).
Example qa_test_stepp_passes : qa_test_stepp = true.
Proof. reflexivity. Qed.

(** The completeness table of create_default_values, and the events in the first source of
    tests/data/area_source_model_processing.xml. *)
Definition qa_default_table : list (spec_float * spec_float) := Eval vm_compute in
  match @minv FL (map ev_year qa_catalogue), @minv FL (map ev_mw qa_catalogue) with
  | Ok y, Ok m => [(y, m)]
  | _, _ => []
  end.
Definition qa_zone : list (event FL) := Eval vm_compute in
  let poly := [(fl "21.0", fl "31.0"); (fl "21.0", fl "35.0"); (fl "25.0", fl "35.0");
               (fl "25.0", fl "31.0")] in
  filter (fun e => demo_contains poly (@ev_lon FL e) (@ev_lat FL e)) qa_catalogue.

(** tests/qa_tests/test_recurrence.py: b, sigma b, a, sigma a to five places. *)
Definition qa_recurrence (alg dt b sb a sa : string) : bool :=
  gives (@recurrence_analysis FL 200 (map ev_year qa_zone) (map ev_mw qa_zone)
           qa_default_table (fl "0.5") alg (fl "1.1") (fl dt))
    (fun q => let '(b', sb', a', sa') := q in
       near (places 5) b' (fl b) && near (places 5) sb' (fl sb)
       && near (places 5) a' (fl a) && near (places 5) sa' (fl sa)).
Definition qa_test_recurrence_weichert_algorithm : bool := Eval vm_compute in
  qa_recurrence "Weichert" "0.3" "0.569790" "0.041210" "132.051268" "7.701386".
Example qa_test_recurrence_weichert_algorithm_passes : qa_test_recurrence_weichert_algorithm = true.
Proof. reflexivity. Qed.
Definition qa_test_recurrence_mle_algorithm : bool := Eval vm_compute in
  qa_recurrence "MLE" "0.0" "0.595256" "0.024816" "158.109066" "49.997286".
Example qa_test_recurrence_mle_algorithm_passes : qa_test_recurrence_mle_algorithm = true.
Proof. reflexivity. Qed.

(** tests/maximum_magnitude/test_maximum_magnitude.py, test_cumulative_moment.  The moments are
    computed once, as in the code; the first lemma says that this is the same function. *)
Definition shared_moment (year mag : list spec_float) : res spec_float :=
  let m_o := map (@moment FL) mag in
  let* ymin := @minv FL year in
  let* ymax := @maxv FL year in
  let year_range := @arange FL ymin (@add FL ymax (@ofZ FL 1)) (@ofZ FL 1) in
  let nyr := @ofnat FL (length year_range) in
  let morate := map (fun tyr =>
      let idx := map (fun y => @ltb FL (@absv FL (@sub FL y tyr)) (@lit FL 1 100000)) year in
      if Nat.ltb 0 (count_true idx) then @sumv FL (mask_get idx m_o) else @ofZ FL 0) year_range in
  let ave_morate := @div FL (@sumv FL morate) nyr in
  let exp_morate := @cumsum FL (map (fun _ => @mul FL ave_morate (@ofZ FL 1)) year_range) in
  let dev := map2 (@sub FL) (@cumsum FL morate) exp_morate in
  let* mx := @maxv FL dev in
  let* mn := @minv FL dev in
  let modiff := @add FL (@absv FL mx) (@absv FL mn) in
  Ok (@mul FL (@div FL (@ofZ FL 2) (@ofZ FL 3))
        (@sub FL (@log10v FL modiff) (@lit FL 905 100))).
Lemma shared_moment_ok : forall year mag, shared_moment year mag = @cumulative_moment FL year mag.
Proof.
  intros. unfold shared_moment, cumulative_moment, moment_deviation.
  destruct (@minv FL year); [|reflexivity]. cbn [bind]. destruct (@maxv FL year); [|reflexivity].
  cbn [bind]. unfold year_moment.
  destruct (@maxv FL _); [|reflexivity]. cbn [bind]. destruct (@minv FL _); reflexivity.
Qed.
Definition test_cumulative_moment : bool := Eval vm_compute in
  gives (shared_moment (map (@ev_year FL) qa_catalogue) (map (@ev_mw FL) qa_catalogue))
    (fun m => near (places 5) m (fl "7.48473")).
Example test_cumulative_moment_passes : test_cumulative_moment = true.
Proof. reflexivity. Qed.

(** test_kijko_npg_intfunc_simps and test_kijko_nonparametric_gauss: the 100 largest magnitudes. *)
Definition qa_select : list spec_float := Eval vm_compute in
  fst (@largest FL (map (@ev_mw FL) qa_catalogue) 100).
Definition test_kijko_npg_intfunc_simps : bool := Eval vm_compute in
  gives (@kijko_npg_intfunc_simps FL (@exp_spaced_points FL (fl "5.8") (fl "7.4") 51) qa_select
           (@h_smooth FL qa_select) 100)
    (fun d => near (places 5) d (fl "0.08461")).
Example test_kijko_npg_intfunc_simps_passes : test_kijko_npg_intfunc_simps = true.
Proof. reflexivity. Qed.
Definition test_kijko_nonparametric_gauss : bool := Eval vm_compute in
  gives (@kijko_nonparametric_gauss FL 200 qa_select (repeat (fl "0.1") 100) 100 51 (fl "0.01") 1000
           None)
    (fun q => near (places 5) (fst q) (fl "7.50755") && near (places 5) (snd q) (fl "0.14686")).
Example test_kijko_nonparametric_gauss_passes : test_kijko_nonparametric_gauss = true.
Proof. reflexivity. Qed.
