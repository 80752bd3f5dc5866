(** back-end/Exu/include/fmul.h, fmul_io_generator: the 9562 gates [n68 ..] in the order of
    the file and the 37 outputs, as literals (see NetModel.v). *)
From Coq Require Import List PArith. Import ListNotations.
Local Open Scope positive_scope.
Definition g0 : list (positive * positive) := [
(53,51); (57,55); (140,138); (61,59); (65,63); (146,144); (148,142); (7,5); (11,9); (154,152); (15,13); (19,17);
(160,158); (162,156); (23,21); (27,25); (168,166); (31,29); (35,33); (174,172); (176,170); (178,164); (39,37); (43,41);
(184,182); (47,45); (188,49); (190,186); (192,180); (194,150); (71,69); (75,73); (200,198); (79,77); (83,81); (206,204);
(208,202); (87,85); (91,89); (214,212); (95,93); (99,97); (220,218); (222,216); (224,210); (103,101); (107,105); (230,228);
(111,109); (234,113); (236,232); (238,226); (116,114); (120,118); (244,242); (124,122); (128,126); (250,248); (252,246); (254,240);
(256,196); (117,115); (121,119); (262,260); (125,123); (129,127); (268,266); (270,264); (272,240); (52,50); (56,54); (278,276);
(60,58); (64,62); (284,282); (286,280); (288,194); (290,274); (293,259); (288,195); (296,49); (299,294); (254,241); (302,113);
(305,300); (303,297); (308,306); (290,275); (312,303); (256,197); (316,297); (319,315); (321,306); (275,197); (325,297); (326,303);
(328,291); (330,257); (195,150); (335,49); (21,19); (338,23); (340,25); (342,27); (344,29); (346,31); (348,33); (350,35);
(352,37); (354,39); (356,41); (358,43); (360,45); (362,47); (364,49); (9,7); (369,11); (370,13); (373,15); (374,17);
(377,19); (378,21); (381,23); (382,25); (385,27); (386,29); (389,31); (390,33); (393,35); (394,37); (397,39); (398,41);
(401,43); (402,45); (405,47); (406,49); (7,4); (411,9); (413,11); (415,13); (417,15); (419,17); (421,19); (423,21);
(425,23); (427,25); (429,27); (431,29); (433,31); (435,33); (437,35); (439,37); (441,39); (443,41); (445,43); (447,45);
(449,47); (451,49); (452,408); (348,33); (457,35); (458,37); (460,39); (462,41); (464,43); (466,45); (468,47); (470,49);
(13,11); (474,15); (476,17); (479,19); (480,21); (482,23); (484,25); (487,27); (488,29); (490,31); (492,33); (495,35);
(496,37); (498,39); (500,41); (503,43); (504,45); (506,47); (508,49); (510,472); (512,454); (515,367); (514,366); (519,517);
(510,454); (523,472); (522,473); (527,525); (510,455); (511,454); (533,531); (452,409); (453,408); (539,537); (453,15); (452,17);
(545,543); (547,540); (453,11); (452,13); (553,551); (555,541); (557,549); (559,534); (453,7); (452,9); (565,563); (567,540);
(452,4); (571,541); (573,569); (575,535); (577,561); (578,528); (581,520); (48,46); (585,540); (453,43); (452,45); (591,589);
(593,541); (595,587); (597,534); (453,39); (452,41); (603,601); (605,540); (453,35); (452,37); (611,609); (613,541); (615,607);
(617,535); (619,599); (621,528); (453,31); (452,33); (627,625); (629,540); (453,27); (452,29); (635,633); (637,541); (639,631);
(641,534); (453,23); (452,25); (647,645); (649,540); (453,19); (452,21); (655,653); (657,541); (659,651); (661,535); (663,643);
(665,529); (667,623); (669,521); (671,583); (673,334); (675,337); (676,197); (678,275); (272,241); (683,113); (85,83); (686,87);
(688,89); (690,91); (692,93); (694,95); (696,97); (698,99); (700,101); (702,103); (704,105); (706,107); (708,109); (710,111);
(712,113); (73,71); (717,75); (718,77); (721,79); (722,81); (725,83); (726,85); (729,87); (730,89); (733,91); (734,93);
(737,95); (738,97); (741,99); (742,101); (745,103); (746,105); (749,107); (750,109); (753,111); (754,113); (71,68); (759,73);
(761,75); (763,77); (765,79); (767,81); (769,83); (771,85); (773,87); (775,89); (777,91); (779,93); (781,95); (783,97);
(785,99); (787,101); (789,103); (791,105); (793,107); (795,109); (797,111); (799,113); (800,756); (696,97); (805,99); (806,101);
(808,103); (810,105); (812,107); (814,109); (816,111); (818,113); (77,75); (822,79); (824,81); (827,83); (828,85); (830,87);
(832,89); (835,91); (836,93); (838,95); (840,97); (843,99); (844,101); (846,103); (848,105); (851,107); (852,109); (854,111);
(856,113); (858,820); (860,802); (863,715); (862,714); (867,865); (858,802); (871,820); (870,821); (875,873); (858,803); (859,802);
(881,879); (800,757); (801,756); (887,885); (801,79); (800,81); (893,891); (895,888); (801,75); (800,77); (901,899); (903,889);
(905,897); (907,882); (801,71); (800,73); (913,911); (915,888); (800,68); (919,889); (921,917); (923,883); (925,909); (926,876);
(929,868); (112,110); (933,888); (801,107)].
Definition g1 : list (positive * positive) := [
(800,109); (939,937); (941,889); (943,935); (945,882); (801,103); (800,105); (951,949); (953,888); (801,99); (800,101); (959,957);
(961,889); (963,955); (965,883); (967,947); (969,876); (801,95); (800,97); (975,973); (977,888); (801,91); (800,93); (983,981);
(985,889); (987,979); (989,882); (801,87); (800,89); (995,993); (997,888); (801,83); (800,85); (1003,1001); (1005,889); (1007,999);
(1009,883); (1011,991); (1013,877); (1015,971); (1017,869); (1019,931); (1021,682); (1023,685); (1024,275); (1026,197); (1028,680); (1030,324);
(683,111); (801,77); (800,79); (1039,1037); (1041,888); (801,73); (800,75); (1047,1045); (1049,889); (1051,1043); (1053,882); (801,69);
(800,71); (1059,1057); (1060,888); (1063,883); (1065,1055); (1066,876); (1069,868); (801,109); (800,111); (1075,1073); (1077,888); (801,105);
(800,107); (1083,1081); (1085,889); (1087,1079); (1089,882); (801,101); (800,103); (1095,1093); (1097,888); (801,97); (800,99); (1103,1101);
(1105,889); (1107,1099); (1109,883); (1111,1091); (1113,876); (801,93); (800,95); (1119,1117); (1121,888); (801,89); (800,91); (1127,1125);
(1129,889); (1131,1123); (1133,882); (801,85); (800,87); (1139,1137); (1141,888); (801,81); (800,83); (1147,1145); (1149,889); (1151,1143);
(1153,883); (1155,1135); (1157,877); (1159,1115); (1161,869); (1163,1071); (1165,682); (1167,1035); (1168,275); (1170,197); (1026,678); (1174,1172);
(335,47); (453,13); (452,15); (1183,1181); (1185,540); (453,9); (452,11); (1191,1189); (1193,541); (1195,1187); (1197,534); (453,5);
(452,7); (1203,1201); (1204,540); (1207,535); (1209,1199); (1210,528); (1213,520); (453,45); (452,47); (1219,1217); (1221,540); (453,41);
(452,43); (1227,1225); (1229,541); (1231,1223); (1233,534); (453,37); (452,39); (1239,1237); (1241,540); (453,33); (452,35); (1247,1245);
(1249,541); (1251,1243); (1253,535); (1255,1235); (1257,528); (453,29); (452,31); (1263,1261); (1265,540); (453,25); (452,27); (1271,1269);
(1273,541); (1275,1267); (1277,534); (453,21); (452,23); (1283,1281); (1285,540); (453,17); (452,19); (1291,1289); (1293,541); (1295,1287);
(1297,535); (1299,1279); (1301,529); (1303,1259); (1305,521); (1307,1215); (1309,334); (1311,1179); (1312,197); (1314,275); (1174,1172); (1175,1173);
(1321,1319); (1322,1316); (1325,1177); (1028,680); (1029,681); (1331,1329); (1332,1327); (1031,325); (1030,324); (1339,1337); (1340,1334); (1343,1033);
(1342,1032); (1347,1345); (1340,1335); (1341,1334); (1353,1351); (683,109); (903,888); (915,889); (1361,1359); (1363,882); (918,888); (1367,883);
(1369,1365); (1370,876); (1373,868); (941,888); (953,889); (1379,1377); (1381,882); (961,888); (977,889); (1387,1385); (1389,883); (1391,1383);
(1393,876); (985,888); (997,889); (1399,1397); (1401,882); (1005,888); (895,889); (1407,1405); (1409,883); (1411,1403); (1413,877); (1415,1395);
(1417,869); (1419,1375); (1421,682); (1423,1357); (1424,275); (1426,197); (1426,678); (683,107); (1049,888); (1061,889); (1437,1435); (1438,882);
(1440,876); (1443,868); (1085,888); (1097,889); (1449,1447); (1451,882); (1105,888); (1121,889); (1457,1455); (1459,883); (1461,1453); (1463,876);
(1129,888); (1141,889); (1469,1467); (1471,882); (1149,888); (1041,889); (1477,1475); (1479,883); (1481,1473); (1483,877); (1485,1465); (1487,869);
(1489,1445); (1491,682); (1493,1433); (1494,275); (1496,197); (1498,1430); (1500,1428); (1170,678); (1314,1026); (1507,1505); (1506,1504); (1511,1509);
(335,45); (555,540); (567,541); (1519,1517); (1521,534); (570,540); (1525,535); (1527,1523); (1528,528); (1531,520); (593,540); (605,541);
(1537,1535); (1539,534); (613,540); (629,541); (1545,1543); (1547,535); (1549,1541); (1551,528); (637,540); (649,541); (1557,1555); (1559,534);
(657,540); (547,541); (1565,1563); (1567,535); (1569,1561); (1571,529); (1573,1553); (1575,521); (1577,1533); (1579,334); (1581,1515); (1582,197);
(1584,275); (1587,1513); (1586,1512); (1591,1589); (1500,1428); (1501,1429); (1597,1595); (1598,1592); (1601,1503); (1506,1504); (1586,1512); (1607,1605);
(1609,1603); (1608,1602); (1613,1611); (1322,1317); (1323,1316); (1619,1617); (1621,1614); (1332,1326); (1333,1327); (1627,1625); (1629,1622); (1609,1603);
(1629,1623); (1628,1622); (1637,1635); (1639,1632); (1641,1631); (1643,1355); (1643,1355); (1642,1354); (1649,1647); (1639,1633); (1638,1632); (1655,1653);
(683,103); (871,821); (870,820); (1663,1661); (1062,882); (1666,1665); (1669,868); (1109,882); (1133,883); (1675,1673); (1677,876); (1153,882);
(1053,883); (1683,1681); (1685,877); (1687,1679); (1689,869); (1691,1671); (1693,682); (1695,1659); (1696,275); (1698,197); (1698,678); (683,101);
(1366,882); (1706,1665); (1709,868); (1389,882); (1401,883); (1715,1713); (1717,876); (1409,882); (1363,883); (1723,1721); (1725,877); (1727,1719);
(1729,869); (1731,1711); (1733,682); (1735,1705)].
Definition g2 : list (positive * positive) := [
(1736,275); (1738,197); (1740,1702); (1742,1700); (683,105); (922,882); (1748,876); (1751,868); (965,882); (989,883); (1757,1755); (1759,876);
(1009,882); (907,883); (1765,1763); (1767,877); (1769,1761); (1771,869); (1773,1753); (1775,682); (1777,1747); (1778,275); (1780,197); (1496,678);
(1785,1782); (1784,1783); (1789,1787); (1426,1314); (1793,1790); (1792,1791); (1797,1795); (1496,1314); (1780,678); (1802,1800); (1584,1426); (1802,1801);
(1803,1800); (1811,1809); (1813,1806); (1815,1805); (1817,1798); (1816,1799); (1821,1819); (1584,1170); (335,43); (1193,540); (1205,541); (1831,1829);
(1832,534); (1834,528); (1837,520); (1229,540); (1241,541); (1843,1841); (1845,534); (1249,540); (1265,541); (1851,1849); (1853,535); (1855,1847);
(1857,528); (1273,540); (1285,541); (1863,1861); (1865,534); (1293,540); (1185,541); (1871,1869); (1873,535); (1875,1867); (1877,529); (1879,1859);
(1881,521); (1883,1839); (1885,334); (1887,1827); (1888,197); (1890,1026); (1893,1824); (1892,1825); (1897,1895); (335,41); (574,534); (1902,528);
(1905,520); (617,534); (641,535); (1911,1909); (1913,528); (661,534); (559,535); (1919,1917); (1921,529); (1923,1915); (1925,521); (1927,1907);
(1929,334); (1931,1901); (1932,197); (1934,275); (1937,1899); (1936,1898); (1941,1939); (1943,1822); (1942,1823); (1947,1945); (1948,1744); (1498,1430);
(1499,1431); (1955,1953); (1784,1782); (1792,1791); (1961,1959); (1963,1956); (1962,1957); (1967,1965); (1314,1170); (1584,1026); (1973,1970); (1972,1971);
(1977,1975); (1890,275); (1981,1979); (1980,1978); (1985,1983); (1987,1969); (1986,1968); (1991,1989); (1993,1950); (1963,1956); (1987,1968); (1999,1997);
(2001,1995); (2000,1994); (2005,2003); (1972,1970); (1980,1979); (2011,2009); (2013,2007); (2012,2006); (2017,2015); (1598,1593); (1599,1592); (2023,2021);
(2025,2018); (1621,1614); (1620,1615); (2031,2029); (2032,2026); (2001,1994); (2013,2007); (2039,2037); (2032,2027); (2033,2026); (2045,2043); (2047,2041);
(2049,2035); (2051,1657); (2051,1657); (2050,1656); (2057,2055); (2047,2040); (2046,2041); (2063,2061); (683,99); (1459,882); (1471,883); (2071,2069);
(2073,876); (1479,882); (1439,883); (2079,2077); (2081,877); (2083,2075); (2084,869); (2087,682); (2089,2067); (2090,275); (2092,197); (1738,678);
(2096,2094); (1698,1314); (2096,2094); (2097,2095); (2105,2103); (2106,2100); (2109,2099); (1740,1702); (1741,1703); (2115,2113); (2116,2111); (1743,1701);
(1742,1700); (2123,2121); (2124,2118); (1813,1807); (1812,1806); (2131,2129); (1584,1496); (1780,1314); (2136,2134); (1890,1426); (2136,2135); (2137,2134);
(2145,2143); (2147,2140); (2149,2139); (2151,2133); (2150,2132); (2155,2153); (1890,1170); (1934,1026); (2161,2158); (2160,2159); (2165,2163); (335,39);
(523,473); (522,472); (2173,2171); (1206,534); (2176,2175); (2179,520); (1253,534); (1277,535); (2185,2183); (2187,528); (1297,534); (1197,535);
(2193,2191); (2195,529); (2197,2189); (2199,521); (2201,2181); (2203,334); (2205,2169); (2206,197); (2208,275); (2211,2167); (2210,2166); (2215,2213);
(2217,2156); (2216,2157); (2221,2219); (2124,2119); (2125,2118); (2227,2225); (2229,2222); (2231,2127); (1948,1745); (1949,1744); (2237,2235); (2239,2233);
(1817,1798); (1943,1822); (2245,2243); (2247,2241); (2246,2240); (2251,2249); (1892,1824); (1936,1899); (2257,2255); (2259,2253); (2258,2252); (2263,2261);
(1993,1951); (1992,1950); (2269,2267); (2271,2264); (2025,2018); (2024,2019); (2277,2275); (2278,2272); (2247,2240); (2259,2253); (2285,2283); (2278,2273);
(2279,2272); (2291,2289); (2293,2287); (2295,2281); (2297,2065); (2298,2058); (2301,2053); (2297,2065); (2296,2064); (2307,2305); (2308,2058); (2293,2286);
(2292,2287); (2315,2313); (2092,678); (1738,1314); (2320,2318); (1698,1584); (2320,2318); (2321,2319); (2329,2327); (2330,2324); (2333,2323); (2106,2101);
(2107,2100); (2339,2337); (2341,2335); (2116,2111); (2117,2110); (2347,2345); (2348,2342); (2147,2141); (2146,2140); (2355,2353); (1890,1496); (1780,1584);
(2360,2358); (1934,1426); (2360,2359); (2361,2358); (2369,2367); (2371,2364); (2373,2363); (2375,2357); (2374,2356); (2379,2377); (1934,1170); (2208,1026);
(2385,2382); (2384,2383); (2389,2387); (335,37); (1524,534); (2394,2175); (2397,520); (1547,534); (1559,535); (2403,2401); (2405,528); (1567,534);
(1521,535); (2411,2409); (2413,529); (2415,2407); (2417,521); (2419,2399); (2421,334); (2423,2393); (2424,197); (2426,275); (2429,2391); (2428,2390);
(2433,2431); (2435,2380); (2434,2381); (2439,2437); (2348,2343); (2349,2342); (2445,2443); (2447,2440); (2449,2351); (2229,2223); (2228,2222); (2455,2453);
(2457,2451); (2151,2133); (2217,2156); (2463,2461); (2465,2459); (2464,2458); (2469,2467); (2160,2158); (2210,2167); (2475,2473); (2477,2471); (2476,2470);
(2481,2479); (2239,2232); (2238,2233); (2487,2485); (2489,2482); (2271,2264); (2270,2265); (2495,2493); (2496,2490); (2465,2458); (2477,2471); (2503,2501);
(2496,2491); (2497,2490); (2509,2507); (2511,2505); (2513,2499); (2515,2317); (2515,2317); (2514,2316); (2521,2519); (2511,2504); (2510,2505); (2527,2525);
(2341,2335); (2340,2334); (2533,2531); (683,97)].
Definition g3 : list (positive * positive) := [
(1013,876); (927,877); (2541,2539); (2542,869); (2545,682); (2547,2537); (2548,275); (2550,678); (683,95); (1157,876); (1067,877); (2559,2557);
(2560,869); (2563,682); (2565,2555); (2566,275); (2568,197); (2570,2552); (2330,2325); (2331,2324); (2577,2575); (2579,2572); (2092,1314); (1738,1584);
(2584,2582); (1890,1698); (2584,2582); (2585,2583); (2593,2591); (2594,2588); (2597,2587); (2579,2573); (2578,2572); (2603,2601); (2605,2599); (2607,2581);
(2609,2534); (2371,2365); (2370,2364); (2615,2613); (1934,1496); (1890,1780); (2620,2618); (2208,1426); (2620,2619); (2621,2618); (2629,2627); (2631,2624);
(2633,2623); (2635,2617); (2634,2616); (2639,2637); (2208,1170); (2426,1026); (2645,2642); (2644,2643); (2649,2647); (335,35); (1853,534); (1865,535);
(2657,2655); (2659,528); (1873,534); (1833,535); (2665,2663); (2667,529); (2669,2661); (2670,521); (2673,334); (2675,2653); (2676,197); (2678,275);
(2681,2651); (2680,2650); (2685,2683); (2687,2640); (2686,2641); (2691,2689); (2609,2535); (2608,2534); (2697,2695); (2699,2692); (2701,2611); (2447,2441);
(2446,2440); (2707,2705); (2709,2703); (2375,2357); (2435,2380); (2715,2713); (2717,2711); (2716,2710); (2721,2719); (2384,2382); (2428,2391); (2727,2725);
(2729,2723); (2728,2722); (2733,2731); (2457,2450); (2456,2451); (2739,2737); (2741,2734); (2489,2482); (2488,2483); (2747,2745); (2748,2742); (2717,2710);
(2729,2723); (2755,2753); (2748,2743); (2749,2742); (2761,2759); (2763,2757); (2765,2751); (2767,2529); (2768,2522); (2771,2517); (2767,2529); (2766,2528);
(2777,2775); (2778,2522); (2763,2756); (2762,2757); (2785,2783); (2605,2598); (2604,2599); (2791,2789); (683,93); (1413,876); (1371,877); (2799,2797);
(2800,869); (2803,682); (2805,2795); (2806,275); (2808,197); (2568,678); (2812,2810); (2550,1314); (2812,2810); (2813,2811); (2821,2819); (2822,2816);
(2825,2815); (2594,2589); (2595,2588); (2831,2829); (2833,2827); (2092,1584); (1890,1738); (2838,2836); (1934,1698); (2838,2836); (2839,2837); (2847,2845);
(2848,2842); (2851,2841); (2833,2827); (2832,2826); (2857,2855); (2858,2853); (2861,2835); (2863,2793); (2631,2625); (2630,2624); (2869,2867); (2208,1496);
(1934,1780); (2874,2872); (2426,1426); (2874,2873); (2875,2872); (2883,2881); (2885,2878); (2887,2877); (2889,2871); (2888,2870); (2893,2891); (2426,1170);
(2678,1026); (2899,2896); (2898,2897); (2903,2901); (335,33); (665,528); (579,529); (2911,2909); (2912,521); (2915,334); (2917,2907); (2918,197);
(2920,275); (2923,2905); (2922,2904); (2927,2925); (2929,2894); (2928,2895); (2933,2931); (2863,2792); (2862,2793); (2939,2937); (2941,2934); (2943,2865);
(2699,2693); (2698,2692); (2949,2947); (2951,2945); (2635,2617); (2687,2640); (2957,2955); (2959,2953); (2958,2952); (2963,2961); (2644,2642); (2680,2651);
(2969,2967); (2971,2965); (2970,2964); (2975,2973); (2709,2703); (2708,2702); (2981,2979); (2982,2976); (2741,2734); (2740,2735); (2989,2987); (2990,2984);
(2959,2952); (2971,2965); (2997,2995); (2990,2985); (2991,2984); (3003,3001); (3005,2999); (3007,2993); (3009,2787); (3009,2787); (3008,2786); (3015,3013);
(3005,2998); (3004,2999); (3021,3019); (2982,2976); (2983,2977); (3027,3025); (2550,197); (2941,2935); (2940,2934); (3035,3033); (2858,2852); (2859,2853);
(3041,3039); (2808,678); (2568,1314); (3046,3044); (2550,1584); (3046,3044); (3047,3045); (3055,3053); (3056,3050); (3059,3049); (2848,2843); (2849,2842);
(3065,3063); (3067,3061); (2092,1890); (1934,1738); (3072,3070); (2208,1698); (3072,3070); (3073,3071); (3081,3079); (3082,3076); (3085,3075); (3067,3061);
(3066,3060); (3091,3089); (3092,3087); (3095,3069); (3097,3043); (2885,2879); (2884,2878); (3103,3101); (2426,1496); (2208,1780); (3108,3106); (2678,1426);
(3108,3107); (3109,3106); (3117,3115); (3119,3112); (3121,3111); (3123,3105); (3122,3104); (3127,3125); (2678,1170); (2920,1026); (3133,3130); (3132,3131);
(3137,3135); (335,31); (1301,528); (1211,529); (3145,3143); (3146,521); (3149,334); (3151,3141); (3152,197); (3154,275); (3157,3139); (3156,3138);
(3161,3159); (3163,3128); (3162,3129); (3167,3165); (3097,3043); (3096,3042); (3173,3171); (3174,3168); (3177,3099); (3179,3036); (3178,3037); (3183,3181);
(3185,3030); (2951,2945); (2950,2944); (3191,3189); (3192,3186); (3179,3037); (2889,2871); (2929,2894); (3201,3199); (3203,3197); (3202,3196); (3207,3205);
(2898,2896); (2922,2905); (3213,3211); (3215,3209); (3214,3208); (3219,3217); (3192,3187); (3193,3186); (3225,3223); (3227,3220); (3229,3195); (3231,3028);
(3203,3196); (3215,3209); (3237,3235); (3231,3028); (3230,3029); (3243,3241); (3244,3239); (3247,3233); (3249,3023); (3250,3016); (3253,3011); (3255,2780);
(3257,2772); (3249,3023); (3248,3022); (3263,3261); (3264,3016); (3266,2780); (3244,3238); (3245,3239); (3273,3271); (3227,3220); (3226,3221); (3279,3277);
(683,91); (1483,876); (1441,877); (3287,3285); (3288,869); (3291,682); (3293,3283); (3294,275); (3296,197); (683,89); (1767,876); (1749,877);
(3305,3303); (3306,869); (3309,682); (3311,3301); (3312,275); (3314,197); (3296,678); (3318,3316); (3320,3298); (3056,3051); (3057,3050); (3327,3325);
(3320,3298); (3321,3299); (3333,3331); (3334,3329)].
Definition g4 : list (positive * positive) := [
(3337,3323); (2822,2817); (2823,2816); (3343,3341); (3345,3339); (3174,3169); (3175,3168); (3351,3349); (3353,3347); (3352,3346); (3357,3355); (3092,3086);
(3093,3087); (3363,3361); (2808,1314); (2568,1584); (3368,3366); (2550,1890); (3368,3366); (3369,3367); (3377,3375); (3378,3372); (3381,3371); (3082,3077);
(3083,3076); (3387,3385); (3389,3383); (2092,1934); (2208,1738); (3394,3392); (2426,1698); (3394,3392); (3395,3393); (3403,3401); (3404,3398); (3407,3397);
(3389,3383); (3388,3382); (3413,3411); (3414,3409); (3417,3391); (3419,3365); (3119,3113); (3118,3112); (3425,3423); (2678,1496); (2426,1780); (3430,3428);
(2920,1426); (3430,3429); (3431,3428); (3439,3437); (3441,3434); (3443,3433); (3445,3427); (3444,3426); (3449,3447); (2920,1170); (3154,1026); (3455,3452);
(3454,3453); (3459,3457); (335,29); (1571,528); (1529,529); (3467,3465); (3468,521); (3471,334); (3473,3463); (3474,197); (3476,275); (3479,3461);
(3478,3460); (3483,3481); (3485,3450); (3484,3451); (3489,3487); (3419,3365); (3418,3364); (3495,3493); (3496,3490); (3499,3421); (3501,3359); (3500,3358);
(3505,3503); (2570,2552); (2571,2553); (3511,3509); (3512,3506); (3185,3031); (3184,3030); (3519,3517); (3521,3514); (3353,3346); (3501,3359); (3527,3525);
(3123,3105); (3163,3128); (3533,3531); (3535,3529); (3534,3528); (3539,3537); (3132,3130); (3156,3139); (3545,3543); (3547,3540); (3546,3541); (3551,3549);
(3521,3515); (3520,3514); (3557,3555); (3559,3552); (3561,3523); (3563,3280); (3535,3529); (3547,3540); (3569,3567); (3563,3280); (3562,3281); (3575,3573);
(3576,3571); (3579,3565); (3581,3275); (3581,3275); (3580,3274); (3587,3585); (3576,3570); (3577,3571); (3593,3591); (3559,3552); (3558,3553); (3599,3597);
(3319,3317); (3318,3316); (3605,3603); (3314,678); (683,87); (1685,876); (1667,877); (3615,3613); (3616,869); (3619,682); (3621,3611); (3622,275);
(3624,197); (3626,3608); (3296,1314); (3626,3609); (3627,3608); (3635,3633); (3637,3630); (3639,3629); (3641,3606); (3378,3373); (3379,3372); (3647,3645);
(3641,3607); (3640,3606); (3653,3651); (3655,3649); (3657,3643); (3334,3328); (3335,3329); (3663,3661); (3665,3659); (3496,3491); (3497,3490); (3671,3669);
(3673,3667); (3672,3666); (3677,3675); (3414,3408); (3415,3409); (3683,3681); (2808,1584); (2568,1890); (3688,3686); (2550,1934); (3688,3686); (3689,3687);
(3697,3695); (3698,3692); (3701,3691); (3404,3399); (3405,3398); (3707,3705); (3709,3703); (2208,2092); (2426,1738); (3714,3712); (2678,1698); (3714,3712);
(3715,3713); (3723,3721); (3724,3718); (3727,3717); (3709,3703); (3708,3702); (3733,3731); (3734,3729); (3737,3711); (3739,3685); (3441,3435); (3440,3434);
(3745,3743); (2920,1496); (2678,1780); (3750,3748); (3154,1426); (3750,3749); (3751,3748); (3759,3757); (3761,3754); (3763,3753); (3765,3747); (3764,3746);
(3769,3767); (3154,1170); (3476,1026); (3775,3772); (3774,3773); (3779,3777); (335,27); (1877,528); (1835,529); (3787,3785); (3788,521); (3791,334);
(3793,3783); (3794,197); (3796,275); (3799,3781); (3798,3780); (3803,3801); (3805,3770); (3804,3771); (3809,3807); (3739,3685); (3738,3684); (3815,3813);
(3816,3810); (3819,3741); (3821,3679); (3820,3678); (3825,3823); (3345,3338); (3344,3339); (3831,3829); (3833,3826); (3512,3506); (3513,3507); (3839,3837);
(3840,3834); (3673,3666); (3821,3679); (3847,3845); (3445,3427); (3485,3450); (3853,3851); (3855,3849); (3854,3848); (3859,3857); (3454,3452); (3478,3461);
(3865,3863); (3867,3860); (3866,3861); (3871,3869); (3840,3835); (3841,3834); (3877,3875); (3879,3872); (3881,3843); (3883,3600); (3855,3849); (3867,3860);
(3889,3887); (3883,3600); (3882,3601); (3895,3893); (3896,3891); (3899,3885); (3901,3595); (3902,3588); (3905,3583); (3901,3595); (3900,3594); (3911,3909);
(3912,3588); (3896,3890); (3897,3891); (3919,3917); (3879,3872); (3878,3873); (3925,3923); (3637,3631); (3636,3630); (3931,3929); (3314,1314); (3624,678);
(3936,3934); (3296,1584); (3936,3935); (3937,3934); (3945,3943); (3947,3940); (3949,3939); (3951,3933); (3698,3693); (3699,3692); (3957,3955); (3951,3932);
(3950,3933); (3963,3961); (3965,3959); (3967,3953); (3655,3648); (3654,3649); (3973,3971); (3975,3969); (3816,3811); (3817,3810); (3981,3979); (3983,3977);
(3982,3976); (3987,3985); (3734,3728); (3735,3729); (3993,3991); (2808,1890); (2568,1934); (3998,3996); (2550,2208); (3998,3996); (3999,3997); (4007,4005);
(4008,4002); (4011,4001); (3724,3719); (3725,3718); (4017,4015); (4019,4013); (2426,2092); (2678,1738); (4024,4022); (2920,1698); (4024,4022); (4025,4023);
(4033,4031); (4034,4028); (4037,4027); (4019,4013); (4018,4012); (4043,4041); (4044,4039); (4047,4021); (4049,3995); (3761,3755); (3760,3754); (4055,4053);
(3154,1496); (2920,1780); (4060,4058); (3476,1426); (4060,4059); (4061,4058); (4069,4067); (4071,4064); (4073,4063); (4075,4057); (4074,4056); (4079,4077);
(3476,1170); (3796,1026); (4085,4082); (4084,4083); (4089,4087); (335,25); (1921,528); (1903,529); (4097,4095); (4098,521); (4101,334); (4103,4093);
(4104,197); (4106,275); (4109,4091); (4108,4090); (4113,4111); (4115,4080); (4114,4081); (4119,4117); (4049,3995); (4048,3994); (4125,4123); (4126,4120);
(4129,4051); (4131,3989); (4130,3988); (4135,4133)].
Definition g5 : list (positive * positive) := [
(3665,3658); (3664,3659); (4141,4139); (4143,4136); (3833,3826); (3832,3827); (4149,4147); (4150,4144); (3983,3976); (4131,3989); (4157,4155); (3765,3747);
(3805,3770); (4163,4161); (4165,4159); (4164,4158); (4169,4167); (3774,3772); (3798,3781); (4175,4173); (4177,4170); (4176,4171); (4181,4179); (4150,4145);
(4151,4144); (4187,4185); (4189,4182); (4191,4153); (4193,3926); (4165,4159); (4177,4170); (4199,4197); (4193,3926); (4192,3927); (4205,4203); (4206,4201);
(4209,4195); (4211,3921); (4211,3921); (4210,3920); (4217,4215); (4206,4200); (4207,4201); (4223,4221); (4189,4182); (4188,4183); (4229,4227); (683,85);
(1725,876); (1707,877); (4237,4235); (4238,869); (4241,682); (4243,4233); (4244,275); (4246,197); (4246,678); (683,83); (2080,876); (4254,869);
(4257,682); (4259,4253); (4260,275); (4262,197); (4264,4250); (4266,4248); (3965,3958); (3964,3959); (4273,4271); (4275,4268); (3947,3941); (3946,3940);
(4281,4279); (3314,1584); (3624,1314); (4286,4284); (3296,1890); (4286,4285); (4287,4284); (4295,4293); (4297,4290); (4299,4289); (4301,4283); (4008,4003);
(4009,4002); (4307,4305); (4301,4282); (4300,4283); (4313,4311); (4315,4309); (4317,4303); (4275,4269); (4274,4268); (4323,4321); (4325,4319); (4327,4277);
(4126,4121); (4127,4120); (4333,4331); (4335,4329); (4334,4328); (4339,4337); (4044,4038); (4045,4039); (4345,4343); (2808,1934); (2568,2208); (4350,4348);
(2550,2426); (4350,4348); (4351,4349); (4359,4357); (4360,4354); (4363,4353); (4034,4029); (4035,4028); (4369,4367); (4371,4365); (2678,2092); (2920,1738);
(4376,4374); (3154,1698); (4376,4374); (4377,4375); (4385,4383); (4386,4380); (4389,4379); (4371,4365); (4370,4364); (4395,4393); (4396,4391); (4399,4373);
(4401,4347); (4071,4065); (4070,4064); (4407,4405); (3476,1496); (3154,1780); (4412,4410); (3796,1426); (4412,4411); (4413,4410); (4421,4419); (4423,4416);
(4425,4415); (4427,4409); (4426,4408); (4431,4429); (3796,1170); (4106,1026); (4437,4434); (4436,4435); (4441,4439); (335,23); (2195,528); (2177,529);
(4449,4447); (4450,521); (4453,334); (4455,4445); (4456,197); (4458,275); (4461,4443); (4460,4442); (4465,4463); (4467,4432); (4466,4433); (4471,4469);
(4401,4347); (4400,4346); (4477,4475); (4478,4472); (4481,4403); (4483,4340); (4482,4341); (4487,4485); (3975,3969); (3974,3968); (4493,4491); (4494,4488);
(4143,4136); (4142,4137); (4501,4499); (4502,4496); (4335,4329); (4483,4340); (4509,4507); (4075,4057); (4115,4080); (4515,4513); (4517,4511); (4516,4510);
(4521,4519); (4084,4082); (4108,4091); (4527,4525); (4529,4522); (4528,4523); (4533,4531); (4502,4497); (4503,4496); (4539,4537); (4541,4534); (4543,4505);
(4545,4230); (4517,4511); (4529,4522); (4551,4549); (4545,4230); (4544,4231); (4557,4555); (4558,4553); (4561,4547); (4563,4225); (4564,4218); (4567,4213);
(4569,3914); (4571,3906); (4563,4225); (4562,4224); (4577,4575); (4578,4218); (4580,3914); (4558,4552); (4559,4553); (4587,4585); (4541,4534); (4540,4535);
(4593,4591); (4494,4488); (4495,4489); (4599,4597); (683,81); (928,869); (4605,682); (4607,4603); (4608,275); (4610,197); (4262,678); (4614,4612);
(4246,1314); (4614,4612); (4615,4613); (4623,4621); (4624,4618); (4627,4617); (4264,4250); (4265,4251); (4633,4631); (4634,4629); (4315,4308); (4314,4309);
(4641,4639); (4643,4637); (4642,4636); (4647,4645); (4297,4291); (4296,4290); (4653,4651); (3314,1890); (3624,1584); (4658,4656); (3296,1934); (4658,4657);
(4659,4656); (4667,4665); (4669,4662); (4671,4661); (4673,4655); (4360,4355); (4361,4354); (4679,4677); (4673,4655); (4672,4654); (4685,4683); (4686,4681);
(4689,4675); (4691,4649); (4690,4648); (4695,4693); (4267,4249); (4266,4248); (4701,4699); (4702,4696); (4325,4318); (4324,4319); (4709,4707); (4711,4704);
(4643,4636); (4691,4649); (4717,4715); (4478,4473); (4479,4472); (4723,4721); (4725,4719); (4724,4718); (4729,4727); (4396,4390); (4397,4391); (4735,4733);
(2808,2208); (2568,2426); (4740,4738); (2678,2550); (4740,4738); (4741,4739); (4749,4747); (4750,4744); (4753,4743); (4386,4381); (4387,4380); (4759,4757);
(4761,4755); (2920,2092); (3154,1738); (4766,4764); (3476,1698); (4766,4764); (4767,4765); (4775,4773); (4776,4770); (4779,4769); (4761,4755); (4760,4754);
(4785,4783); (4786,4781); (4789,4763); (4791,4737); (4423,4417); (4422,4416); (4797,4795); (3796,1496); (3476,1780); (4802,4800); (4106,1426); (4802,4801);
(4803,4800); (4811,4809); (4813,4806); (4815,4805); (4817,4799); (4816,4798); (4821,4819); (4106,1170); (4458,1026); (4827,4824); (4826,4825); (4831,4829);
(335,21); (2413,528); (2395,529); (4839,4837); (4840,521); (4843,334); (4845,4835); (4846,197); (4848,275); (4851,4833); (4850,4832); (4855,4853);
(4857,4822); (4856,4823); (4861,4859); (4791,4737); (4790,4736); (4867,4865); (4868,4862); (4871,4793); (4873,4730); (4872,4731); (4877,4875); (4711,4705);
(4710,4704); (4883,4881); (4885,4878); (4887,4713); (4889,4600); (4725,4719); (4873,4730); (4895,4893); (4427,4409); (4467,4432); (4901,4899); (4903,4897);
(4902,4896); (4907,4905); (4436,4434); (4460,4443); (4913,4911); (4915,4908); (4914,4909); (4919,4917); (4889,4600); (4888,4601); (4925,4923); (4926,4920);
(4929,4891); (4931,4594); (4903,4897); (4915,4908)].
Definition g6 : list (positive * positive) := [
(4937,4935); (4931,4594); (4930,4595); (4943,4941); (4944,4939); (4947,4933); (4949,4589); (4949,4589); (4948,4588); (4955,4953); (4944,4938); (4945,4939);
(4961,4959); (4926,4920); (4927,4921); (4967,4965); (4885,4878); (4884,4879); (4973,4971); (4610,678); (4262,1314); (4978,4976); (4246,1584); (4978,4976);
(4979,4977); (4987,4985); (4988,4982); (4991,4981); (4624,4619); (4625,4618); (4997,4995); (4999,4993); (4686,4680); (4687,4681); (5005,5003); (5007,5001);
(5006,5000); (5011,5009); (4669,4663); (4668,4662); (5017,5015); (3314,1934); (3624,1890); (5022,5020); (3296,2208); (5022,5021); (5023,5020); (5031,5029);
(5033,5026); (5035,5025); (5037,5019); (4750,4745); (4751,4744); (5043,5041); (5037,5019); (5036,5018); (5049,5047); (5050,5045); (5053,5039); (5055,5013);
(5054,5012); (5059,5057); (4634,4628); (4635,4629); (5065,5063); (5067,5060); (4702,4696); (4703,4697); (5073,5071); (5074,5068); (5007,5000); (5055,5013);
(5081,5079); (4868,4863); (4869,4862); (5087,5085); (5089,5083); (5088,5082); (5093,5091); (4786,4780); (4787,4781); (5099,5097); (2808,2426); (2678,2568);
(5104,5102); (2920,2550); (5104,5102); (5105,5103); (5113,5111); (5114,5108); (5117,5107); (4776,4771); (4777,4770); (5123,5121); (5125,5119); (3154,2092);
(3476,1738); (5130,5128); (3796,1698); (5130,5128); (5131,5129); (5139,5137); (5140,5134); (5143,5133); (5125,5119); (5124,5118); (5149,5147); (5150,5145);
(5153,5127); (5155,5101); (4813,4807); (4812,4806); (5161,5159); (4106,1496); (3796,1780); (5166,5164); (4458,1426); (5166,5165); (5167,5164); (5175,5173);
(5177,5170); (5179,5169); (5181,5163); (5180,5162); (5185,5183); (4458,1170); (4848,1026); (5191,5188); (5190,5189); (5195,5193); (335,19); (2666,528);
(5200,521); (5203,334); (5205,5199); (5206,197); (5208,275); (5211,5197); (5210,5196); (5215,5213); (5217,5186); (5216,5187); (5221,5219); (5155,5101);
(5154,5100); (5227,5225); (5228,5222); (5231,5157); (5233,5094); (5232,5095); (5237,5235); (5074,5069); (5075,5068); (5243,5241); (5245,5238); (5247,5077);
(5249,4974); (5089,5083); (5233,5094); (5255,5253); (4817,4799); (4857,4822); (5261,5259); (5263,5257); (5262,5256); (5267,5265); (4826,4824); (4850,4833);
(5273,5271); (5275,5268); (5274,5269); (5279,5277); (5249,4974); (5248,4975); (5285,5283); (5286,5280); (5289,5251); (5291,4968); (5263,5257); (5275,5268);
(5297,5295); (5291,4968); (5290,4969); (5303,5301); (5304,5299); (5307,5293); (5309,4963); (5310,4956); (5313,4951); (5309,4963); (5308,4962); (5319,5317);
(5320,4956); (5304,5298); (5305,5299); (5327,5325); (5286,5280); (5287,5281); (5333,5331); (5245,5238); (5244,5239); (5339,5337); (5067,5060); (5066,5061);
(5345,5343); (683,79); (1068,869); (5351,682); (5353,5349); (5354,275); (5356,197); (5356,678); (683,77); (1372,869); (5365,682); (5367,5363);
(5368,275); (5370,197); (5372,5360); (4988,4983); (4989,4982); (5379,5377); (5381,5375); (5380,5374); (5385,5383); (4262,1584); (4610,1314); (5390,5388);
(4246,1890); (5390,5389); (5391,5388); (5399,5397); (5401,5394); (5403,5393); (5405,5387); (5404,5386); (5409,5407); (5410,5358); (4999,4992); (4998,4993);
(5417,5415); (5419,5412); (5381,5374); (5405,5387); (5425,5423); (5050,5044); (5051,5045); (5431,5429); (5433,5427); (5432,5426); (5437,5435); (5033,5027);
(5032,5026); (5443,5441); (3314,2208); (3624,1934); (5448,5446); (3296,2426); (5448,5447); (5449,5446); (5457,5455); (5459,5452); (5461,5451); (5463,5445);
(5114,5109); (5115,5108); (5469,5467); (5463,5445); (5462,5444); (5475,5473); (5476,5471); (5479,5465); (5481,5438); (5480,5439); (5485,5483); (5419,5413);
(5418,5412); (5491,5489); (5493,5486); (5495,5421); (5497,5346); (5433,5427); (5481,5438); (5503,5501); (5228,5223); (5229,5222); (5509,5507); (5511,5505);
(5510,5504); (5515,5513); (5150,5144); (5151,5145); (5521,5519); (2808,2678); (2920,2568); (5526,5524); (3154,2550); (5526,5524); (5527,5525); (5535,5533);
(5536,5530); (5539,5529); (5140,5135); (5141,5134); (5545,5543); (5547,5541); (3476,2092); (3796,1738); (5552,5550); (4106,1698); (5552,5550); (5553,5551);
(5561,5559); (5562,5556); (5565,5555); (5547,5541); (5546,5540); (5571,5569); (5572,5567); (5575,5549); (5577,5523); (5177,5171); (5176,5170); (5583,5581);
(4458,1496); (4106,1780); (5588,5586); (4848,1426); (5588,5587); (5589,5586); (5597,5595); (5599,5592); (5601,5591); (5603,5585); (5602,5584); (5607,5605);
(4848,1170); (5208,1026); (5613,5610); (5612,5611); (5617,5615); (335,17); (580,521); (5623,334); (5625,5621); (5626,197); (5628,275); (5631,5619);
(5630,5618); (5635,5633); (5637,5608); (5636,5609); (5641,5639); (5577,5523); (5576,5522); (5647,5645); (5648,5642); (5651,5579); (5653,5516); (5652,5517);
(5657,5655); (5497,5346); (5496,5347); (5663,5661); (5664,5658); (5667,5499); (5669,5340); (5511,5505); (5653,5516); (5675,5673); (5181,5163); (5217,5186);
(5681,5679); (5683,5677); (5682,5676); (5687,5685); (5190,5188); (5210,5197); (5693,5691); (5695,5688); (5694,5689); (5699,5697); (5669,5340); (5668,5341);
(5705,5703); (5706,5700); (5709,5671); (5711,5334); (5683,5677); (5695,5688); (5717,5715); (5711,5334); (5710,5335); (5723,5721); (5724,5719); (5727,5713);
(5729,5329); (5729,5329); (5728,5328); (5735,5733)].
Definition g7 : list (positive * positive) := [
(5724,5718); (5725,5719); (5741,5739); (5706,5700); (5707,5701); (5747,5745); (5664,5658); (5665,5659); (5753,5751); (5493,5486); (5492,5487); (5759,5757);
(683,75); (1442,869); (5765,682); (5767,5763); (5768,275); (5770,197); (5370,678); (5774,5772); (5356,1314); (5774,5772); (5775,5773); (5783,5781);
(5784,5778); (5787,5777); (5401,5395); (5400,5394); (5793,5791); (5795,5789); (5794,5788); (5799,5797); (4262,1890); (4610,1584); (5804,5802); (4246,1934);
(5804,5803); (5805,5802); (5813,5811); (5815,5808); (5817,5807); (5819,5800); (5818,5801); (5823,5821); (5372,5360); (5373,5361); (5829,5827); (5830,5824);
(5410,5359); (5411,5358); (5837,5835); (5839,5832); (5795,5789); (5819,5800); (5845,5843); (5476,5470); (5477,5471); (5851,5849); (5853,5847); (5852,5846);
(5857,5855); (5459,5453); (5458,5452); (5863,5861); (3314,2426); (3624,2208); (5868,5866); (3296,2678); (5868,5867); (5869,5866); (5877,5875); (5879,5872);
(5881,5871); (5883,5865); (5536,5531); (5537,5530); (5889,5887); (5883,5865); (5882,5864); (5895,5893); (5896,5891); (5899,5885); (5901,5858); (5900,5859);
(5905,5903); (5839,5833); (5838,5832); (5911,5909); (5913,5906); (5915,5841); (5917,5760); (5853,5847); (5901,5858); (5923,5921); (5648,5643); (5649,5642);
(5929,5927); (5931,5925); (5930,5924); (5935,5933); (5572,5566); (5573,5567); (5941,5939); (2920,2808); (3154,2568); (5946,5944); (3476,2550); (5946,5944);
(5947,5945); (5955,5953); (5956,5950); (5959,5949); (5562,5557); (5563,5556); (5965,5963); (5967,5961); (3796,2092); (4106,1738); (5972,5970); (4458,1698);
(5972,5970); (5973,5971); (5981,5979); (5982,5976); (5985,5975); (5967,5961); (5966,5960); (5991,5989); (5992,5987); (5995,5969); (5997,5943); (5599,5593);
(5598,5592); (6003,6001); (4848,1496); (4458,1780); (6008,6006); (5208,1426); (6008,6007); (6009,6006); (6017,6015); (6019,6012); (6021,6011); (6023,6005);
(6022,6004); (6027,6025); (5208,1170); (5628,1026); (6033,6030); (6032,6031); (6037,6035); (335,15); (1212,521); (6043,334); (6045,6041); (6046,197);
(6048,275); (6051,6039); (6050,6038); (6055,6053); (6057,6028); (6056,6029); (6061,6059); (5997,5943); (5996,5942); (6067,6065); (6068,6062); (6071,5999);
(6073,5936); (6072,5937); (6077,6075); (5917,5760); (5916,5761); (6083,6081); (6084,6078); (6087,5919); (6089,5754); (5931,5925); (6073,5936); (6095,6093);
(5603,5585); (5637,5608); (6101,6099); (6103,6097); (6102,6096); (6107,6105); (5612,5610); (5630,5619); (6113,6111); (6115,6108); (6114,6109); (6119,6117);
(6089,5754); (6088,5755); (6125,6123); (6126,6120); (6129,6091); (6131,5748); (6103,6097); (6115,6108); (6137,6135); (6131,5748); (6130,5749); (6143,6141);
(6144,6139); (6147,6133); (6149,5743); (6150,5736); (6153,5731); (6155,5322); (6157,5314); (6159,4582); (6161,4572); (6149,5743); (6148,5742); (6167,6165);
(6168,5736); (6170,5322); (6172,4582); (6144,6138); (6145,6139); (6179,6177); (6126,6120); (6127,6121); (6185,6183); (6084,6078); (6085,6079); (6191,6189);
(5913,5906); (5912,5907); (6197,6195); (5830,5824); (5831,5825); (6203,6201); (5784,5779); (5785,5778); (6209,6207); (683,71); (1668,869); (6215,682);
(6217,6213); (6218,275); (6220,197); (683,73); (1750,869); (6227,682); (6229,6225); (6230,275); (6232,678); (6234,6222); (6232,197); (6238,6236);
(5770,678); (5370,1314); (6245,6243); (6244,6242); (6249,6247); (5356,1584); (6253,6251); (6252,6250); (6257,6255); (6238,6237); (6239,6236); (6263,6261);
(6265,6258); (6267,6241); (6269,6211); (6244,6242); (6252,6250); (6275,6273); (5815,5809); (5814,5808); (6281,6279); (6283,6277); (6282,6276); (6287,6285);
(4262,1934); (4610,1890); (6292,6290); (4246,2208); (6292,6291); (6293,6290); (6301,6299); (6303,6296); (6305,6295); (6307,6289); (6306,6288); (6311,6309);
(6269,6211); (6268,6210); (6317,6315); (6318,6313); (6321,6271); (6323,6204); (6283,6277); (6307,6288); (6329,6327); (5896,5890); (5897,5891); (6335,6333);
(6337,6331); (6336,6330); (6341,6339); (5879,5873); (5878,5872); (6347,6345); (3314,2678); (3624,2426); (6352,6350); (3296,2920); (6352,6351); (6353,6350);
(6361,6359); (6363,6356); (6365,6355); (6367,6349); (5956,5951); (5957,5950); (6373,6371); (6367,6349); (6366,6348); (6379,6377); (6380,6375); (6383,6369);
(6385,6343); (6384,6342); (6389,6387); (6323,6204); (6322,6205); (6395,6393); (6396,6391); (6399,6325); (6401,6198); (6337,6331); (6385,6342); (6407,6405);
(6068,6063); (6069,6062); (6413,6411); (6415,6409); (6414,6408); (6419,6417); (5992,5986); (5993,5987); (6425,6423); (3154,2808); (3476,2568); (6430,6428);
(3796,2550); (6430,6428); (6431,6429); (6439,6437); (6440,6434); (6443,6433); (5982,5977); (5983,5976); (6449,6447); (6451,6445); (4106,2092); (4458,1738);
(6456,6454); (4848,1698); (6456,6454); (6457,6455); (6465,6463); (6466,6460); (6469,6459); (6451,6445); (6450,6444); (6475,6473); (6476,6471); (6479,6453);
(6481,6427); (6019,6013); (6018,6012); (6487,6485); (5208,1496); (4848,1780); (6492,6490); (5628,1426); (6492,6491); (6493,6490); (6501,6499); (6503,6496);
(6505,6495); (6507,6489); (6506,6488); (6511,6509); (5628,1170); (6048,1026); (6517,6514); (6516,6515); (6521,6519); (335,13); (1530,521); (6527,334);
(6529,6525); (6530,197); (6532,275); (6535,6523)].
Definition g8 : list (positive * positive) := [
(6534,6522); (6539,6537); (6541,6512); (6540,6513); (6545,6543); (6481,6427); (6480,6426); (6551,6549); (6552,6546); (6555,6483); (6557,6421); (6556,6420);
(6561,6559); (6401,6198); (6400,6199); (6567,6565); (6568,6563); (6571,6403); (6573,6192); (6415,6409); (6557,6420); (6579,6577); (6023,6005); (6057,6028);
(6585,6583); (6587,6580); (6586,6581); (6591,6589); (6032,6030); (6050,6039); (6597,6595); (6599,6593); (6598,6592); (6603,6601); (6573,6192); (6572,6193);
(6609,6607); (6610,6604); (6613,6575); (6615,6186); (6587,6581); (6599,6593); (6621,6619); (6615,6186); (6614,6187); (6627,6625); (6628,6623); (6631,6617);
(6633,6181); (6633,6181); (6632,6180); (6639,6637); (6628,6622); (6629,6623); (6645,6643); (6610,6605); (6611,6604); (6651,6649); (6568,6562); (6569,6563);
(6657,6655); (6396,6390); (6397,6391); (6663,6661); (6318,6312); (6319,6313); (6669,6667); (6265,6259); (6264,6258); (6675,6673); (6235,6223); (6234,6222);
(6681,6679); (6220,678); (683,69); (1708,869); (6689,682); (6691,6687); (6692,275); (6694,197); (6696,6684); (6232,1314); (6696,6685); (6697,6684);
(6705,6703); (6707,6700); (6709,6699); (6711,6682); (5770,1314); (5370,1584); (6717,6715); (6716,6714); (6721,6719); (5356,1890); (6725,6723); (6724,6722);
(6729,6727); (6711,6683); (6710,6682); (6735,6733); (6737,6730); (6739,6713); (6741,6677); (6716,6714); (6724,6722); (6747,6745); (6303,6297); (6302,6296);
(6753,6751); (6755,6749); (6754,6748); (6759,6757); (4262,2208); (4610,1934); (6764,6762); (4246,2426); (6764,6763); (6765,6762); (6773,6771); (6775,6768);
(6777,6767); (6779,6761); (6778,6760); (6783,6781); (6741,6677); (6740,6676); (6789,6787); (6790,6785); (6793,6743); (6795,6671); (6755,6749); (6779,6760);
(6801,6799); (6380,6374); (6381,6375); (6807,6805); (6809,6803); (6808,6802); (6813,6811); (6363,6357); (6362,6356); (6819,6817); (3314,2920); (3624,2678);
(6824,6822); (3296,3154); (6824,6823); (6825,6822); (6833,6831); (6835,6828); (6837,6827); (6839,6821); (6440,6435); (6441,6434); (6845,6843); (6839,6821);
(6838,6820); (6851,6849); (6852,6847); (6855,6841); (6857,6815); (6856,6814); (6861,6859); (6795,6671); (6794,6670); (6867,6865); (6868,6863); (6871,6797);
(6873,6665); (6809,6803); (6857,6814); (6879,6877); (6552,6547); (6553,6546); (6885,6883); (6887,6881); (6886,6880); (6891,6889); (6476,6470); (6477,6471);
(6897,6895); (3476,2808); (3796,2568); (6902,6900); (4106,2550); (6902,6900); (6903,6901); (6911,6909); (6912,6906); (6915,6905); (6466,6461); (6467,6460);
(6921,6919); (6923,6917); (4458,2092); (4848,1738); (6928,6926); (5208,1698); (6928,6926); (6929,6927); (6937,6935); (6938,6932); (6941,6931); (6923,6916);
(6922,6917); (6947,6945); (6949,6943); (6951,6925); (6953,6899); (6503,6497); (6502,6496); (6959,6957); (5628,1496); (5208,1780); (6964,6962); (6048,1426);
(6964,6963); (6965,6962); (6973,6971); (6975,6968); (6977,6967); (6979,6961); (6978,6960); (6983,6981); (6048,1170); (6532,1026); (6989,6986); (6988,6987);
(6993,6991); (335,11); (1836,521); (6999,334); (7001,6997); (7002,197); (7004,275); (7007,6995); (7006,6994); (7011,7009); (7013,6984); (7012,6985);
(7017,7015); (6953,6899); (6952,6898); (7023,7021); (7024,7018); (7027,6955); (7029,6893); (7028,6892); (7033,7031); (6873,6665); (6872,6664); (7039,7037);
(7040,7035); (7043,6875); (7045,6659); (6887,6881); (7029,6892); (7051,7049); (6507,6489); (6541,6512); (7057,7055); (7059,7052); (7058,7053); (7063,7061);
(6516,6514); (6534,6523); (7069,7067); (7071,7064); (7070,7065); (7075,7073); (7045,6659); (7044,6658); (7081,7079); (7082,7077); (7085,7047); (7087,6653);
(7059,7053); (7071,7065); (7093,7091); (7087,6653); (7086,6652); (7099,7097); (7100,7095); (7103,7089); (7105,6647); (7106,6640); (7109,6635); (7105,6647);
(7104,6646); (7115,7113); (7116,6640); (7100,7094); (7101,7095); (7123,7121); (7082,7076); (7083,7077); (7129,7127); (7040,7034); (7041,7035); (7135,7133);
(6868,6862); (6869,6863); (7141,7139); (6790,6784); (6791,6785); (7147,7145); (6737,6731); (6736,6730); (7153,7151); (6707,6701); (6706,6700); (7159,7157);
(6220,1314); (6694,678); (7164,7162); (6232,1584); (7164,7163); (7165,7162); (7173,7171); (7175,7168); (7177,7167); (7179,7161); (5770,1584); (5370,1890);
(7185,7183); (7184,7182); (7189,7187); (5356,1934); (7193,7191); (7192,7190); (7197,7195); (7179,7160); (7178,7161); (7203,7201); (7205,7198); (7207,7181);
(7209,7155); (7184,7182); (7192,7190); (7215,7213); (6775,6769); (6774,6768); (7221,7219); (7223,7217); (7222,7216); (7227,7225); (4262,2426); (4610,2208);
(7232,7230); (4246,2678); (7232,7231); (7233,7230); (7241,7239); (7243,7236); (7245,7235); (7247,7229); (7246,7228); (7251,7249); (7209,7154); (7208,7155);
(7257,7255); (7259,7253); (7261,7211); (7263,7149); (7223,7217); (7247,7228); (7269,7267); (6852,6846); (6853,6847); (7275,7273); (7277,7271); (7276,7270);
(7281,7279); (6835,6829); (6834,6828); (7287,7285); (3314,3154); (3624,2920); (7292,7290); (3476,3296); (7292,7291); (7293,7290); (7301,7299); (7303,7296);
(7305,7295); (7307,7289); (6912,6907); (6913,6906); (7313,7311); (7307,7289); (7306,7288); (7319,7317); (7320,7315); (7323,7309); (7325,7283); (7324,7282);
(7329,7327); (7263,7148); (7262,7149); (7335,7333)].
Definition g9 : list (positive * positive) := [
(7337,7331); (7339,7265); (7341,7143); (7277,7271); (7325,7282); (7347,7345); (7024,7019); (7025,7018); (7353,7351); (7355,7349); (7354,7348); (7359,7357);
(6949,6942); (6948,6943); (7365,7363); (3796,2808); (4106,2568); (7370,7368); (4458,2550); (7370,7368); (7371,7369); (7379,7377); (7380,7374); (7383,7373);
(6938,6933); (6939,6932); (7389,7387); (7391,7385); (4848,2092); (5208,1738); (7396,7394); (5628,1698); (7396,7394); (7397,7395); (7405,7403); (7406,7400);
(7409,7399); (7391,7384); (7390,7385); (7415,7413); (7417,7411); (7419,7393); (7421,7367); (6975,6969); (6974,6968); (7427,7425); (6048,1496); (5628,1780);
(7432,7430); (6532,1426); (7432,7431); (7433,7430); (7441,7439); (7443,7436); (7445,7435); (7447,7429); (7446,7428); (7451,7449); (6532,1170); (7004,1026);
(7457,7454); (7456,7455); (7461,7459); (335,9); (1904,521); (7467,334); (7469,7465); (7470,197); (7472,275); (7475,7463); (7474,7462); (7479,7477);
(7481,7452); (7480,7453); (7485,7483); (7421,7367); (7420,7366); (7491,7489); (7492,7486); (7495,7423); (7497,7361); (7496,7360); (7501,7499); (7341,7142);
(7340,7143); (7507,7505); (7509,7503); (7511,7343); (7513,7137); (7355,7349); (7497,7360); (7519,7517); (6979,6961); (7013,6984); (7525,7523); (7527,7520);
(7526,7521); (7531,7529); (6988,6986); (7006,6995); (7537,7535); (7539,7532); (7538,7533); (7543,7541); (7513,7136); (7512,7137); (7549,7547); (7551,7545);
(7553,7515); (7555,7131); (7527,7521); (7539,7533); (7561,7559); (7555,7130); (7554,7131); (7567,7565); (7569,7563); (7571,7557); (7573,7125); (7573,7125);
(7572,7124); (7579,7577); (7569,7562); (7568,7563); (7585,7583); (7551,7544); (7550,7545); (7591,7589); (7509,7502); (7508,7503); (7597,7595); (7337,7330);
(7336,7331); (7603,7601); (7259,7252); (7258,7253); (7609,7607); (7205,7199); (7204,7198); (7615,7613); (7175,7169); (7174,7168); (7621,7619); (6220,1584);
(6694,1314); (7626,7624); (6232,1890); (7626,7625); (7627,7624); (7635,7633); (7637,7630); (7639,7629); (7641,7623); (5770,1890); (5370,1934); (7647,7645);
(7646,7644); (7651,7649); (5356,2208); (7655,7653); (7654,7652); (7659,7657); (7641,7622); (7640,7623); (7665,7663); (7667,7660); (7669,7643); (7671,7617);
(7646,7644); (7654,7652); (7677,7675); (7243,7237); (7242,7236); (7683,7681); (7685,7679); (7684,7678); (7689,7687); (4262,2678); (4610,2426); (7694,7692);
(4246,2920); (7694,7693); (7695,7692); (7703,7701); (7705,7698); (7707,7697); (7709,7691); (7708,7690); (7713,7711); (7671,7616); (7670,7617); (7719,7717);
(7721,7715); (7723,7673); (7725,7611); (7685,7679); (7709,7690); (7731,7729); (7320,7314); (7321,7315); (7737,7735); (7739,7733); (7738,7732); (7743,7741);
(7303,7297); (7302,7296); (7749,7747); (3476,3314); (3624,3154); (7754,7752); (3796,3296); (7754,7753); (7755,7752); (7763,7761); (7765,7758); (7767,7757);
(7769,7751); (7380,7375); (7381,7374); (7775,7773); (7769,7751); (7768,7750); (7781,7779); (7782,7777); (7785,7771); (7787,7745); (7786,7744); (7791,7789);
(7725,7610); (7724,7611); (7797,7795); (7799,7793); (7801,7727); (7803,7605); (7739,7733); (7787,7744); (7809,7807); (7492,7487); (7493,7486); (7815,7813);
(7817,7811); (7816,7810); (7821,7819); (7417,7410); (7416,7411); (7827,7825); (4106,2808); (4458,2568); (7832,7830); (4848,2550); (7832,7830); (7833,7831);
(7841,7839); (7842,7836); (7845,7835); (7406,7401); (7407,7400); (7851,7849); (7853,7847); (5208,2092); (5628,1738); (7858,7856); (6048,1698); (7858,7856);
(7859,7857); (7867,7865); (7868,7862); (7871,7861); (7853,7846); (7852,7847); (7877,7875); (7879,7873); (7881,7855); (7883,7829); (7443,7437); (7442,7436);
(7889,7887); (6532,1496); (6048,1780); (7894,7892); (7004,1426); (7894,7893); (7895,7892); (7903,7901); (7905,7898); (7907,7897); (7909,7891); (7908,7890);
(7913,7911); (7004,1170); (7472,1026); (7919,7916); (7918,7917); (7923,7921); (335,7); (2178,521); (7929,334); (7931,7927); (7932,197); (7934,275);
(7937,7925); (7936,7924); (7941,7939); (7943,7914); (7942,7915); (7947,7945); (7883,7829); (7882,7828); (7953,7951); (7954,7948); (7957,7885); (7959,7823);
(7958,7822); (7963,7961); (7803,7604); (7802,7605); (7969,7967); (7971,7965); (7973,7805); (7975,7599); (7817,7811); (7959,7822); (7981,7979); (7447,7429);
(7481,7452); (7987,7985); (7989,7982); (7988,7983); (7993,7991); (7456,7454); (7474,7463); (7999,7997); (8001,7994); (8000,7995); (8005,8003); (7975,7598);
(7974,7599); (8011,8009); (8013,8007); (8015,7977); (8017,7593); (7989,7983); (8001,7995); (8023,8021); (8017,7592); (8016,7593); (8029,8027); (8031,8025);
(8033,8019); (8035,7587); (8036,7580); (8039,7575); (8041,7118); (8043,7110); (8035,7587); (8034,7586); (8049,8047); (8050,7580); (8052,7118); (8031,8024);
(8030,8025); (8059,8057); (8013,8006); (8012,8007); (8065,8063); (7971,7964); (7970,7965); (8071,8069); (7799,7792); (7798,7793); (8077,8075); (7721,7714);
(7720,7715); (8083,8081); (7667,7661); (7666,7660); (8089,8087); (7637,7631); (7636,7630); (8095,8093); (6220,1890); (6694,1584); (8100,8098); (6232,1934);
(8100,8099); (8101,8098); (8109,8107); (8111,8104); (8113,8103); (8115,8097); (5770,1934); (5370,2208); (8121,8119); (8120,8118); (8125,8123); (5356,2426);
(8129,8127); (8128,8126); (8133,8131); (8115,8096)].
Definition g10 : list (positive * positive) := [
(8114,8097); (8139,8137); (8141,8134); (8143,8117); (8145,8091); (8120,8118); (8128,8126); (8151,8149); (7705,7699); (7704,7698); (8157,8155); (8159,8153);
(8158,8152); (8163,8161); (4262,2920); (4610,2678); (8168,8166); (4246,3154); (8168,8167); (8169,8166); (8177,8175); (8179,8172); (8181,8171); (8183,8165);
(8182,8164); (8187,8185); (8145,8090); (8144,8091); (8193,8191); (8195,8189); (8197,8147); (8199,8085); (8159,8153); (8183,8164); (8205,8203); (7782,7776);
(7783,7777); (8211,8209); (8213,8207); (8212,8206); (8217,8215); (7765,7759); (7764,7758); (8223,8221); (3796,3314); (3624,3476); (8228,8226); (4106,3296);
(8228,8227); (8229,8226); (8237,8235); (8239,8232); (8241,8231); (8243,8225); (7842,7837); (7843,7836); (8249,8247); (8243,8225); (8242,8224); (8255,8253);
(8256,8251); (8259,8245); (8261,8219); (8260,8218); (8265,8263); (8199,8084); (8198,8085); (8271,8269); (8273,8267); (8275,8201); (8277,8079); (8213,8207);
(8261,8218); (8283,8281); (7954,7949); (7955,7948); (8289,8287); (8291,8285); (8290,8284); (8295,8293); (7879,7872); (7878,7873); (8301,8299); (4458,2808);
(4848,2568); (8306,8304); (5208,2550); (8306,8304); (8307,8305); (8315,8313); (8316,8310); (8319,8309); (7868,7863); (7869,7862); (8325,8323); (8327,8321);
(5628,2092); (6048,1738); (8332,8330); (6532,1698); (8332,8330); (8333,8331); (8341,8339); (8342,8336); (8345,8335); (8327,8320); (8326,8321); (8351,8349);
(8353,8347); (8355,8329); (8357,8303); (7905,7899); (7904,7898); (8363,8361); (7004,1496); (6532,1780); (8368,8366); (7472,1426); (8368,8367); (8369,8366);
(8377,8375); (8379,8372); (8381,8371); (8383,8365); (8382,8364); (8387,8385); (7472,1170); (7934,1026); (8393,8390); (8392,8391); (8397,8395); (335,5);
(2396,521); (8403,334); (8405,8401); (8406,197); (8408,275); (8411,8399); (8410,8398); (8415,8413); (8417,8388); (8416,8389); (8421,8419); (8357,8303);
(8356,8302); (8427,8425); (8428,8422); (8431,8359); (8433,8297); (8432,8296); (8437,8435); (8277,8078); (8276,8079); (8443,8441); (8445,8439); (8447,8279);
(8449,8073); (8291,8285); (8433,8296); (8455,8453); (7909,7891); (7943,7914); (8461,8459); (8463,8456); (8462,8457); (8467,8465); (7918,7916); (7936,7925);
(8473,8471); (8475,8468); (8474,8469); (8479,8477); (8449,8072); (8448,8073); (8485,8483); (8487,8481); (8489,8451); (8491,8067); (8463,8457); (8475,8469);
(8497,8495); (8491,8066); (8490,8067); (8503,8501); (8505,8499); (8507,8493); (8509,8061); (8509,8061); (8508,8060); (8515,8513); (8505,8498); (8504,8499);
(8521,8519); (8487,8480); (8486,8481); (8527,8525); (8445,8438); (8444,8439); (8533,8531); (8273,8266); (8272,8267); (8539,8537); (8195,8188); (8194,8189);
(8545,8543); (8141,8135); (8140,8134); (8551,8549); (8111,8105); (8110,8104); (8557,8555); (6220,1934); (6694,1890); (8562,8560); (6232,2208); (8562,8561);
(8563,8560); (8571,8569); (8573,8566); (8575,8565); (8577,8559); (5770,2208); (5370,2426); (8583,8581); (8582,8580); (8587,8585); (5356,2678); (8591,8589);
(8590,8588); (8595,8593); (8577,8558); (8576,8559); (8601,8599); (8603,8596); (8605,8579); (8607,8553); (8582,8580); (8590,8588); (8613,8611); (8179,8173);
(8178,8172); (8619,8617); (8621,8615); (8620,8614); (8625,8623); (4262,3154); (4610,2920); (8630,8628); (4246,3476); (8630,8629); (8631,8628); (8639,8637);
(8641,8634); (8643,8633); (8645,8627); (8644,8626); (8649,8647); (8607,8552); (8606,8553); (8655,8653); (8657,8651); (8659,8609); (8661,8547); (8621,8615);
(8645,8626); (8667,8665); (8256,8250); (8257,8251); (8673,8671); (8675,8669); (8674,8668); (8679,8677); (8239,8233); (8238,8232); (8685,8683); (4106,3314);
(3796,3624); (8690,8688); (4458,3296); (8690,8689); (8691,8688); (8699,8697); (8701,8694); (8703,8693); (8705,8687); (8316,8311); (8317,8310); (8711,8709);
(8705,8686); (8704,8687); (8717,8715); (8719,8713); (8721,8707); (8723,8681); (8722,8680); (8727,8725); (8661,8546); (8660,8547); (8733,8731); (8735,8729);
(8737,8663); (8739,8541); (8675,8669); (8723,8680); (8745,8743); (8428,8423); (8429,8422); (8751,8749); (8753,8747); (8752,8746); (8757,8755); (8353,8346);
(8352,8347); (8763,8761); (4848,2808); (5208,2568); (8768,8766); (5628,2550); (8768,8766); (8769,8767); (8777,8775); (8778,8772); (8781,8771); (8342,8337);
(8343,8336); (8787,8785); (8789,8783); (6048,2092); (6532,1738); (8794,8792); (7004,1698); (8794,8792); (8795,8793); (8803,8801); (8804,8798); (8807,8797);
(8789,8782); (8788,8783); (8813,8811); (8815,8809); (8817,8791); (8819,8765); (8379,8373); (8378,8372); (8825,8823); (7472,1496); (7004,1780); (8830,8828);
(7934,1426); (8830,8829); (8831,8828); (8839,8837); (8841,8834); (8843,8833); (8845,8827); (8844,8826); (8849,8847); (7934,1170); (8408,1026); (8854,8852);
(8855,8853); (8859,8857); (8860,8850); (8861,8851); (8865,8863); (8819,8764); (8818,8765); (8871,8869); (8873,8866); (8875,8821); (8877,8759); (8876,8758);
(8881,8879); (8739,8540); (8738,8541); (8887,8885); (8889,8883); (8891,8741); (8893,8535); (8753,8747); (8877,8758); (8899,8897); (8383,8365); (8417,8388);
(8905,8903); (8907,8900); (8906,8901); (8911,8909); (8392,8390); (8410,8399); (8917,8915); (8919,8912); (8918,8913); (8923,8921); (8893,8534); (8892,8535);
(8929,8927); (8931,8925); (8933,8895); (8935,8529)].
Definition g11 : list (positive * positive) := [
(8907,8901); (8919,8913); (8941,8939); (8935,8528); (8934,8529); (8947,8945); (8949,8943); (8951,8937); (8953,8523); (8954,8516); (8957,8511); (8953,8523);
(8952,8522); (8963,8961); (8964,8516); (8949,8942); (8948,8943); (8971,8969); (8931,8924); (8930,8925); (8977,8975); (8889,8882); (8888,8883); (8983,8981);
(8735,8728); (8734,8729); (8989,8987); (8657,8650); (8656,8651); (8995,8993); (8603,8597); (8602,8596); (9001,8999); (8573,8567); (8572,8566); (9007,9005);
(6220,2208); (6694,1934); (9012,9010); (6232,2426); (9012,9011); (9013,9010); (9021,9019); (9023,9016); (9025,9015); (9027,9009); (5770,2426); (5370,2678);
(9033,9031); (9032,9030); (9037,9035); (5356,2920); (9041,9039); (9040,9038); (9045,9043); (9027,9008); (9026,9009); (9051,9049); (9053,9046); (9055,9029);
(9057,9003); (9032,9030); (9040,9038); (9063,9061); (8641,8635); (8640,8634); (9069,9067); (9071,9065); (9070,9064); (9075,9073); (4262,3476); (4610,3154);
(9080,9078); (4246,3796); (9080,9079); (9081,9078); (9089,9087); (9091,9084); (9093,9083); (9095,9077); (9094,9076); (9099,9097); (9057,9002); (9056,9003);
(9105,9103); (9107,9101); (9109,9059); (9111,8997); (9071,9065); (9095,9076); (9117,9115); (8719,8712); (8718,8713); (9123,9121); (9125,9119); (9124,9118);
(9129,9127); (8701,8695); (8700,8694); (9135,9133); (4458,3314); (4106,3624); (9140,9138); (4848,3296); (9140,9139); (9141,9138); (9149,9147); (9151,9144);
(9153,9143); (9155,9137); (8778,8773); (8779,8772); (9161,9159); (9155,9136); (9154,9137); (9167,9165); (9169,9163); (9171,9157); (9173,9131); (9172,9130);
(9177,9175); (9111,8996); (9110,8997); (9183,9181); (9185,9179); (9187,9113); (9189,8991); (9125,9119); (9173,9130); (9195,9193); (8873,8867); (8872,8866);
(9201,9199); (9203,9197); (9202,9196); (9207,9205); (8815,8808); (8814,8809); (9213,9211); (5208,2808); (5628,2568); (9218,9216); (6048,2550); (9218,9216);
(9219,9217); (9227,9225); (9228,9222); (9231,9221); (8804,8799); (8805,8798); (9237,9235); (9239,9233); (6532,2092); (7004,1738); (9244,9242); (7472,1698);
(9244,9242); (9245,9243); (9253,9251); (9254,9248); (9257,9247); (9239,9232); (9238,9233); (9263,9261); (9265,9259); (9267,9241); (9269,9215); (8841,8835);
(8840,8834); (9275,9273); (7934,1496); (7472,1780); (9280,9278); (8408,1426); (9280,9279); (9281,9278); (9289,9287); (9291,9284); (9293,9283); (9295,9277);
(9294,9276); (9299,9297); (8408,1170); (9303,9301); (9302,9300); (9307,9305); (9269,9214); (9268,9215); (9313,9311); (9315,9308); (9317,9271); (9319,9209);
(9318,9208); (9323,9321); (9189,8990); (9188,8991); (9329,9327); (9331,9325); (9333,9191); (9335,8985); (9203,9197); (9319,9208); (9341,9339); (8845,8827);
(8860,8850); (9347,9345); (9349,9342); (9348,9343); (9353,9351); (8854,8852); (9357,9354); (9356,9355); (9361,9359); (9335,8984); (9334,8985); (9367,9365);
(9369,9362); (9371,9337); (9373,8979); (9349,9343); (9356,9355); (9379,9377); (9373,8978); (9372,8979); (9385,9383); (9387,9381); (9389,9375); (9391,8973);
(9391,8973); (9390,8972); (9397,9395); (9387,9380); (9386,9381); (9403,9401); (9369,9363); (9368,9362); (9409,9407); (9331,9324); (9330,9325); (9415,9413);
(9185,9178); (9184,9179); (9421,9419); (9107,9100); (9106,9101); (9427,9425); (9053,9047); (9052,9046); (9433,9431); (9023,9017); (9022,9016); (9439,9437);
(6220,2426); (6694,2208); (9444,9442); (6232,2678); (9444,9443); (9445,9442); (9453,9451); (9455,9448); (9457,9447); (9459,9441); (5770,2678); (5370,2920);
(9465,9463); (9464,9462); (9469,9467); (5356,3154); (9473,9471); (9472,9470); (9477,9475); (9459,9440); (9458,9441); (9483,9481); (9485,9478); (9487,9461);
(9489,9435); (9464,9462); (9472,9470); (9495,9493); (9091,9085); (9090,9084); (9501,9499); (9503,9497); (9502,9496); (9507,9505); (4262,3796); (4610,3476);
(9512,9510); (4246,4106); (9512,9511); (9513,9510); (9521,9519); (9523,9516); (9525,9515); (9527,9509); (9526,9508); (9531,9529); (9489,9434); (9488,9435);
(9537,9535); (9539,9533); (9541,9491); (9543,9429); (9503,9497); (9527,9508); (9549,9547); (9169,9162); (9168,9163); (9555,9553); (9557,9551); (9556,9550);
(9561,9559); (9151,9145); (9150,9144); (9567,9565); (4848,3314); (4458,3624); (9572,9570); (5208,3296); (9572,9571); (9573,9570); (9581,9579); (9583,9576);
(9585,9575); (9587,9569); (9228,9223); (9229,9222); (9593,9591); (9587,9568); (9586,9569); (9599,9597); (9601,9595); (9603,9589); (9605,9563); (9604,9562);
(9609,9607); (9543,9428); (9542,9429); (9615,9613); (9617,9611); (9619,9545); (9621,9423); (9557,9551); (9605,9562); (9627,9625); (9315,9309); (9314,9308);
(9633,9631); (9635,9629); (9634,9628); (9639,9637); (9265,9258); (9264,9259); (9645,9643); (5628,2808); (6048,2568); (9650,9648); (6532,2550); (9650,9648);
(9651,9649); (9659,9657); (9660,9654); (9663,9653); (9254,9249); (9255,9248); (9669,9667); (9671,9665); (7004,2092); (7472,1738); (9676,9674); (7934,1698);
(9676,9674); (9677,9675); (9685,9683); (9686,9680); (9689,9679); (9671,9664); (9670,9665); (9695,9693); (9697,9691); (9699,9673); (9701,9647); (9291,9285);
(9290,9284); (9707,9705); (8408,1496); (7934,1780); (9712,9710); (9715,9709); (9714,9708); (9719,9717); (9701,9646); (9700,9647); (9725,9723); (9727,9721);
(9729,9703); (9731,9641); (9730,9640); (9735,9733)].
Definition g12 : list (positive * positive) := [
(9621,9422); (9620,9423); (9741,9739); (9743,9737); (9745,9623); (9747,9417); (9635,9629); (9731,9640); (9753,9751); (9295,9277); (9302,9300); (9759,9757);
(9761,9755); (9760,9754); (9765,9763); (9747,9416); (9746,9417); (9771,9769); (9773,9766); (9775,9749); (9777,9411); (9761,9755); (9777,9410); (9776,9411);
(9785,9783); (9787,9780); (9789,9779); (9791,9405); (9792,9398); (9795,9393); (9797,8966); (9799,8958); (9801,8054); (9803,8044); (9791,9405); (9790,9404);
(9809,9807); (9810,9398); (9812,8966); (9814,8054); (9787,9781); (9786,9780); (9821,9819); (9773,9767); (9772,9766); (9827,9825); (9743,9736); (9742,9737);
(9833,9831); (9617,9610); (9616,9611); (9839,9837); (9539,9532); (9538,9533); (9845,9843); (9485,9479); (9484,9478); (9851,9849); (9455,9449); (9454,9448);
(9857,9855); (6220,2678); (6694,2426); (9862,9860); (6232,2920); (9862,9861); (9863,9860); (9871,9869); (9873,9866); (9875,9865); (9877,9859); (5770,2920);
(5370,3154); (9883,9881); (9882,9880); (9887,9885); (5356,3476); (9891,9889); (9890,9888); (9895,9893); (9877,9858); (9876,9859); (9901,9899); (9903,9896);
(9905,9879); (9907,9853); (9882,9880); (9890,9888); (9913,9911); (9523,9517); (9522,9516); (9919,9917); (9921,9915); (9920,9914); (9925,9923); (4262,4106);
(4610,3796); (9930,9928); (4458,4246); (9930,9929); (9931,9928); (9939,9937); (9941,9934); (9943,9933); (9945,9927); (9944,9926); (9949,9947); (9907,9852);
(9906,9853); (9955,9953); (9957,9951); (9959,9909); (9961,9847); (9921,9915); (9945,9926); (9967,9965); (9601,9594); (9600,9595); (9973,9971); (9975,9969);
(9974,9968); (9979,9977); (9583,9577); (9582,9576); (9985,9983); (5208,3314); (4848,3624); (9990,9988); (5628,3296); (9990,9989); (9991,9988); (9999,9997);
(10001,9994); (10003,9993); (10005,9987); (9660,9655); (9661,9654); (10011,10009); (10005,9987); (10004,9986); (10017,10015); (10018,10013); (10021,10007); (10023,9981);
(10022,9980); (10027,10025); (9961,9846); (9960,9847); (10033,10031); (10035,10029); (10037,9963); (10039,9841); (9975,9969); (10023,9980); (10045,10043); (9727,9720);
(9726,9721); (10051,10049); (10053,10047); (10052,10046); (10057,10055); (9697,9690); (9696,9691); (10063,10061); (6532,2568); (6048,2808); (10068,10066); (7004,2550);
(10068,10067); (10069,10066); (10077,10075); (10079,10072); (10081,10071); (9686,9681); (9687,9680); (10087,10085); (10089,10083); (7472,2092); (7934,1738); (10094,10092);
(8408,1698); (10094,10092); (10095,10093); (10103,10101); (10104,10098); (10107,10097); (10089,10082); (10088,10083); (10113,10111); (10115,10109); (10117,10091); (10119,10065);
(9713,9711); (9712,9710); (10125,10123); (10119,10065); (10118,10064); (10131,10129); (10132,10126); (10135,10121); (10137,10059); (10136,10058); (10141,10139); (10039,9840);
(10038,9841); (10147,10145); (10149,10143); (10151,10041); (10153,9835); (10053,10047); (10137,10058); (10159,10157); (9714,9709); (10163,10160); (10162,10161); (10167,10165);
(10153,9834); (10152,9835); (10173,10171); (10175,10168); (10177,10155); (10179,9829); (10162,10161); (10179,9828); (10178,9829); (10187,10185); (10189,10182); (10191,10181);
(10193,9823); (10193,9823); (10192,9822); (10199,10197); (10175,10169); (10174,10168); (10205,10203); (10149,10142); (10148,10143); (10211,10209); (10035,10028); (10034,10029);
(10217,10215); (9957,9950); (9956,9951); (10223,10221); (9903,9897); (9902,9896); (10229,10227); (9873,9867); (9872,9866); (10235,10233); (6220,2920); (6694,2678);
(10240,10238); (6232,3154); (10240,10239); (10241,10238); (10249,10247); (10251,10244); (10253,10243); (10255,10237); (5770,3154); (5370,3476); (10261,10259); (10260,10258);
(10265,10263); (5356,3796); (10269,10267); (10268,10266); (10273,10271); (10255,10236); (10254,10237); (10279,10277); (10281,10274); (10283,10257); (10285,10231); (10260,10258);
(10268,10266); (10291,10289); (9941,9935); (9940,9934); (10297,10295); (10299,10293); (10298,10292); (10303,10301); (4458,4262); (4610,4106); (10308,10306); (4848,4246);
(10308,10307); (10309,10306); (10317,10315); (10319,10312); (10321,10311); (10323,10305); (10322,10304); (10327,10325); (10285,10230); (10284,10231); (10333,10331); (10335,10329);
(10337,10287); (10339,10225); (10299,10293); (10323,10304); (10345,10343); (10018,10012); (10019,10013); (10351,10349); (10353,10347); (10352,10346); (10357,10355); (10001,9995);
(10000,9994); (10363,10361); (5628,3314); (5208,3624); (10368,10366); (6048,3296); (10368,10367); (10369,10366); (10377,10375); (10379,10372); (10381,10371); (10383,10365);
(10079,10073); (10078,10072); (10389,10387); (10383,10365); (10382,10364); (10395,10393); (10396,10391); (10399,10385); (10401,10359); (10400,10358); (10405,10403); (10339,10224);
(10338,10225); (10411,10409); (10413,10407); (10415,10341); (10417,10219); (10353,10347); (10401,10358); (10423,10421); (10132,10127); (10133,10126); (10429,10427); (10431,10424);
(10430,10425); (10435,10433); (10115,10108); (10114,10109); (10441,10439); (7004,2568); (6532,2808); (10446,10444); (7472,2550); (10447,10445); (10446,10444); (10455,10453);
(10456,10450); (10459,10449); (10104,10099); (10105,10098); (10465,10463); (10467,10461); (7934,2092); (8408,1738); (10472,10470); (10467,10461); (10466,10460); (10479,10477);
(10480,10474); (10483,10469); (10485,10443); (8408,1780); (10485,10443); (10484,10442); (10493,10491); (10494,10488); (10497,10487); (10499,10437); (10498,10436); (10503,10501);
(10417,10218); (10416,10219); (10509,10507); (10511,10504); (10513,10419); (10515,10213); (10431,10425); (10499,10437); (10521,10519); (10515,10212); (10514,10213); (10527,10525);
(10529,10523); (10531,10517); (10533,10207); (10189,10183)].
Definition g13 : list (positive * positive) := [
(10188,10182); (10539,10537); (10541,10534); (10542,10200); (10545,10195); (10541,10535); (10540,10534); (10551,10549); (10553,10200); (10529,10522); (10528,10523); (10559,10557);
(10511,10505); (10510,10504); (10565,10563); (10413,10406); (10412,10407); (10571,10569); (10335,10328); (10334,10329); (10577,10575); (10281,10275); (10280,10274); (10583,10581);
(10251,10245); (10250,10244); (10589,10587); (6220,3154); (6694,2920); (10594,10592); (6232,3476); (10594,10593); (10595,10592); (10603,10601); (10605,10598); (10607,10597);
(10609,10591); (5770,3476); (5370,3796); (10615,10613); (10614,10612); (10619,10617); (5356,4106); (10623,10621); (10622,10620); (10627,10625); (10609,10590); (10608,10591);
(10633,10631); (10635,10628); (10637,10611); (10639,10585); (10614,10612); (10622,10620); (10645,10643); (10319,10313); (10318,10312); (10651,10649); (10653,10647); (10652,10646);
(10657,10655); (4848,4262); (4610,4458); (10662,10660); (5208,4246); (10662,10661); (10663,10660); (10671,10669); (10673,10666); (10675,10665); (10677,10659); (10676,10658);
(10681,10679); (10639,10584); (10638,10585); (10687,10685); (10689,10683); (10691,10641); (10693,10579); (10653,10647); (10677,10658); (10699,10697); (10396,10390); (10397,10391);
(10705,10703); (10707,10701); (10706,10700); (10711,10709); (10379,10373); (10378,10372); (10717,10715); (6048,3314); (5628,3624); (10722,10720); (6532,3296); (10722,10721);
(10723,10720); (10731,10729); (10733,10726); (10735,10725); (10737,10719); (10456,10451); (10457,10450); (10743,10741); (10737,10719); (10736,10718); (10749,10747); (10750,10745);
(10753,10739); (10755,10713); (10754,10712); (10759,10757); (10693,10578); (10692,10579); (10765,10763); (10767,10761); (10769,10695); (10771,10573); (10707,10701); (10755,10712);
(10777,10775); (10494,10489); (10495,10488); (10783,10781); (10785,10779); (10784,10778); (10789,10787); (7472,2568); (7004,2808); (10794,10792); (7934,2550); (10795,10793);
(10794,10792); (10803,10801); (10804,10798); (10807,10797); (10472,10470); (10473,10471); (10813,10811); (10814,10809); (10480,10475); (10481,10474); (10821,10819); (10823,10816);
(10825,10791); (10824,10790); (10829,10827); (10771,10572); (10770,10573); (10835,10833); (10837,10830); (10839,10773); (10841,10567); (10785,10779); (10824,10790); (10847,10845);
(10841,10566); (10840,10567); (10853,10851); (10855,10849); (10857,10843); (10859,10561); (10533,10206); (10532,10207); (10865,10863); (10867,10860); (10866,10861); (10867,10860);
(10873,10871); (10855,10848); (10854,10849); (10879,10877); (10837,10831); (10836,10830); (10885,10883); (10767,10760); (10766,10761); (10891,10889); (10689,10682); (10688,10683);
(10897,10895); (10635,10629); (10634,10628); (10903,10901); (10605,10599); (10604,10598); (10909,10907); (6220,3476); (6694,3154); (10914,10912); (6232,3796); (10914,10913);
(10915,10912); (10923,10921); (10925,10918); (10927,10917); (10929,10911); (5770,3796); (5370,4106); (10935,10933); (10934,10932); (10939,10937); (5356,4458); (10943,10941);
(10942,10940); (10947,10945); (10929,10910); (10928,10911); (10953,10951); (10955,10948); (10957,10931); (10959,10905); (10934,10932); (10942,10940); (10965,10963); (10673,10667);
(10672,10666); (10971,10969); (10973,10967); (10972,10966); (10977,10975); (5208,4262); (4848,4610); (10982,10980); (5628,4246); (10982,10981); (10983,10980); (10991,10989);
(10993,10986); (10995,10985); (10997,10979); (10996,10978); (11001,10999); (10959,10904); (10958,10905); (11007,11005); (11009,11003); (11011,10961); (11013,10899); (10973,10967);
(10997,10978); (11019,11017); (10750,10744); (10751,10745); (11025,11023); (11027,11021); (11026,11020); (11031,11029); (10733,10727); (10732,10726); (11037,11035); (6532,3314);
(6048,3624); (11042,11040); (7004,3296); (11042,11041); (11043,11040); (11051,11049); (11053,11046); (11055,11045); (11057,11039); (10804,10799); (10805,10798); (11063,11061);
(11057,11039); (11056,11038); (11069,11067); (11070,11065); (11073,11059); (11075,11033); (11074,11032); (11079,11077); (11013,10898); (11012,10899); (11085,11083); (11087,11081);
(11089,11015); (11091,10893); (11027,11021); (11075,11032); (11097,11095); (10823,10817); (10822,10816); (11103,11101); (11105,11099); (11104,11098); (11109,11107); (7934,2568);
(7472,2808); (11114,11112); (8408,2550); (11114,11113); (11115,11112); (11123,11121); (11125,11118); (11127,11117); (8408,2092); (11130,11129); (10814,10809); (10815,10808);
(11137,11135); (11138,11132); (11141,11111); (11140,11110); (11145,11143); (11091,10892); (11090,10893); (11151,11149); (11153,11146); (11155,11093); (11157,10887); (11105,11099);
(11140,11110); (11163,11161); (11157,10886); (11156,10887); (11169,11167); (11171,11165); (11173,11159); (11175,10881); (10859,10560); (10858,10561); (11181,11179); (11183,11176);
(11184,10874); (11187,10869); (11189,10554); (11191,10546); (11183,11177); (11182,11176); (11197,11195); (11199,10874); (11200,10554); (11171,11164); (11170,11165); (11207,11205);
(11153,11147); (11152,11146); (11213,11211); (11087,11080); (11086,11081); (11219,11217); (11009,11002); (11008,11003); (11225,11223); (10955,10949); (10954,10948); (11231,11229);
(10925,10919); (10924,10918); (11237,11235); (6220,3796); (6694,3476); (11242,11240); (6232,4106); (11242,11241); (11243,11240); (11251,11249); (11253,11246); (11255,11245);
(11257,11239); (5770,4106); (5370,4458); (11263,11261); (11262,11260); (11267,11265); (5356,4848); (11271,11269); (11270,11268); (11275,11273); (11257,11238); (11256,11239);
(11281,11279); (11283,11276); (11285,11259); (11287,11233); (11262,11260); (11270,11268); (11293,11291); (10993,10987); (10992,10986); (11299,11297); (11301,11295); (11300,11294);
(11305,11303); (5628,4262); (5208,4610); (11310,11308); (6048,4246); (11310,11309); (11311,11308); (11319,11317); (11321,11314); (11323,11313); (11325,11307); (11324,11306);
(11329,11327); (11287,11232); (11286,11233); (11335,11333)].
Definition g14 : list (positive * positive) := [
(11337,11331); (11339,11289); (11341,11227); (11301,11295); (11325,11306); (11347,11345); (11070,11064); (11071,11065); (11353,11351); (11355,11349); (11354,11348); (11359,11357);
(11053,11047); (11052,11046); (11365,11363); (7004,3314); (6532,3624); (11370,11368); (7472,3296); (11370,11369); (11371,11368); (11379,11377); (11381,11374); (11383,11373);
(11385,11367); (11125,11119); (11124,11118); (11391,11389); (11385,11367); (11384,11366); (11397,11395); (11398,11393); (11401,11387); (11403,11361); (11402,11360); (11407,11405);
(11341,11226); (11340,11227); (11413,11411); (11415,11409); (11417,11343); (11419,11221); (11355,11349); (11403,11360); (11425,11423); (11138,11133); (11139,11132); (11431,11429);
(11433,11427); (11432,11426); (11437,11435); (11419,11220); (11418,11221); (11443,11441); (11445,11438); (11447,11421); (11449,11215); (11433,11427); (11449,11214); (11448,11215);
(11457,11455); (11459,11452); (11461,11451); (11463,11209); (11175,10880); (11174,10881); (11469,11467); (11471,11464); (11470,11465); (11471,11464); (11477,11475); (11459,11453);
(11458,11452); (11483,11481); (11445,11438); (11444,11439); (11489,11487); (11415,11408); (11414,11409); (11495,11493); (11337,11330); (11336,11331); (11501,11499); (11283,11277);
(11282,11276); (11507,11505); (11253,11247); (11252,11246); (11513,11511); (6220,4106); (6694,3796); (11518,11516); (6232,4458); (11518,11517); (11519,11516); (11527,11525);
(11529,11522); (11531,11521); (11533,11515); (5770,4458); (5370,4848); (11539,11537); (11538,11536); (11543,11541); (5356,5208); (11547,11545); (11546,11544); (11551,11549);
(11533,11514); (11532,11515); (11557,11555); (11559,11552); (11561,11535); (11563,11509); (11538,11536); (11546,11544); (11569,11567); (11321,11315); (11320,11314); (11575,11573);
(11577,11571); (11576,11570); (11581,11579); (6048,4262); (5628,4610); (11586,11584); (6532,4246); (11586,11585); (11587,11584); (11595,11593); (11597,11590); (11599,11589);
(11601,11583); (11600,11582); (11605,11603); (11563,11508); (11562,11509); (11611,11609); (11613,11607); (11615,11565); (11617,11503); (11577,11571); (11601,11582); (11623,11621);
(11398,11392); (11399,11393); (11629,11627); (11631,11625); (11630,11624); (11635,11633); (11381,11375); (11380,11374); (11641,11639); (7472,3314); (7004,3624); (11646,11644);
(7934,3296); (11646,11645); (11647,11644); (11655,11653); (11657,11650); (11659,11649); (11661,11643); (7934,2808); (8408,2568); (11667,11665); (11666,11664); (11671,11669);
(11661,11643); (11660,11642); (11677,11675); (11678,11672); (11681,11663); (11683,11637); (11682,11636); (11687,11685); (11617,11502); (11616,11503); (11693,11691); (11695,11689);
(11697,11619); (11699,11497); (11631,11625); (11683,11636); (11705,11703); (11130,11129); (11131,11128); (11711,11709); (11712,11707); (11713,11706); (11717,11715); (11699,11496);
(11698,11497); (11723,11721); (11725,11718); (11727,11701); (11729,11490); (11712,11707); (11729,11491); (11728,11490); (11737,11735); (11739,11732); (11741,11731); (11743,11485);
(11463,11208); (11462,11209); (11749,11747); (11751,11744); (11752,11478); (11755,11473); (11751,11745); (11750,11744); (11761,11759); (11763,11478); (11739,11733); (11738,11732);
(11769,11767); (11725,11719); (11724,11718); (11775,11773); (11695,11688); (11694,11689); (11781,11779); (11613,11606); (11612,11607); (11787,11785); (11559,11553); (11558,11552);
(11793,11791); (11529,11523); (11528,11522); (11799,11797); (6220,4458); (6694,4106); (11804,11802); (6232,4848); (11804,11803); (11805,11802); (11813,11811); (11815,11808);
(11817,11807); (11819,11801); (5770,4848); (5370,5208); (11825,11823); (11824,11822); (11829,11827); (5628,5356); (11833,11831); (11832,11830); (11837,11835); (11819,11800);
(11818,11801); (11843,11841); (11845,11838); (11847,11821); (11849,11795); (11824,11822); (11832,11830); (11855,11853); (11597,11591); (11596,11590); (11861,11859); (11863,11857);
(11862,11856); (11867,11865); (6532,4262); (6048,4610); (11872,11870); (7004,4246); (11872,11871); (11873,11870); (11881,11879); (11883,11876); (11885,11875); (11887,11869);
(11886,11868); (11891,11889); (11849,11794); (11848,11795); (11897,11895); (11899,11893); (11901,11851); (11903,11789); (11863,11857); (11887,11868); (11909,11907); (11678,11673);
(11679,11672); (11915,11913); (11917,11911); (11916,11910); (11921,11919); (11657,11651); (11656,11650); (11927,11925); (7934,3314); (7472,3624); (11932,11930); (8408,3296);
(11932,11931); (11933,11930); (11941,11939); (11943,11936); (11945,11935); (11947,11929); (8408,2808); (11947,11929); (11946,11928); (11955,11953); (11956,11950); (11959,11949);
(11961,11923); (11960,11922); (11965,11963); (11903,11788); (11902,11789); (11971,11969); (11973,11967); (11975,11905); (11977,11783); (11917,11911); (11961,11922); (11983,11981);
(11666,11664); (11987,11984); (11986,11985); (11991,11989); (11977,11782); (11976,11783); (11997,11995); (11999,11992); (12001,11979); (12003,11777); (11986,11985); (12003,11776);
(12002,11777); (12011,12009); (12013,12006); (12015,12005); (12017,11771); (11743,11484); (11742,11485); (12023,12021); (12025,12018); (12024,12019); (12025,12018); (12031,12029);
(12017,11770); (12016,11771); (12037,12035); (12013,12007); (12012,12006); (12043,12041); (11999,11993); (11998,11992); (12049,12047); (11973,11966); (11972,11967); (12055,12053);
(11899,11892); (11898,11893); (12061,12059); (11845,11839); (11844,11838); (12067,12065); (11815,11809); (11814,11808); (12073,12071); (6220,4848); (6694,4458); (12078,12076);
(6232,5208); (12078,12077); (12079,12076); (12087,12085); (12089,12082); (12091,12081); (12093,12075); (5770,5208); (5628,5370); (12099,12097); (12098,12096); (12103,12101);
(6048,5356); (12107,12104); (12106,12105); (12111,12109); (12093,12074); (12092,12075); (12117,12115); (12119,12113); (12121,12095); (12123,12069); (12098,12096); (12106,12104);
(12129,12127); (11883,11877); (11882,11876); (12135,12133)].
Definition g15 : list (positive * positive) := [
(12137,12131); (12136,12130); (12141,12139); (7004,4262); (6532,4610); (12146,12144); (7472,4246); (12146,12145); (12147,12144); (12155,12153); (12157,12150); (12159,12149);
(12161,12142); (12160,12143); (12165,12163); (12123,12068); (12122,12069); (12171,12169); (12173,12166); (12175,12125); (12177,12063); (12137,12131); (12161,12142); (12183,12181);
(11956,11951); (11957,11950); (12189,12187); (12191,12185); (12190,12184); (12195,12193); (8408,3314); (7934,3624); (12200,12198); (11943,11937); (11942,11936); (12207,12205);
(12209,12202); (12211,12196); (12210,12197); (12215,12213); (12177,12062); (12176,12063); (12221,12219); (12223,12217); (12225,12179); (12227,12057); (12191,12185); (12210,12196);
(12233,12231); (12227,12056); (12226,12057); (12239,12237); (12241,12235); (12243,12229); (12245,12051); (12246,12045); (12248,12039); (12250,12032); (12253,12027); (12255,11764);
(12257,11756); (12259,11202); (12261,11192); (12263,9816); (12265,9804); (12248,12039); (12249,12038); (12271,12269); (12272,12032); (12274,11764); (12276,11202); (12278,9816);
(12241,12234); (12240,12235); (12285,12283); (12223,12216); (12222,12217); (12291,12289); (12173,12167); (12172,12166); (12297,12295); (12119,12112); (12118,12113); (12303,12301);
(12089,12083); (12088,12082); (12309,12307); (6220,5208); (6694,4848); (12314,12312); (6232,5628); (12314,12313); (12315,12312); (12323,12321); (12325,12318); (12327,12317);
(12329,12311); (5770,5628); (6048,5370); (12335,12333); (12334,12332); (12339,12337); (6532,5356); (12343,12340); (12342,12341); (12347,12345); (12329,12311); (12328,12310);
(12353,12351); (12354,12349); (12357,12331); (12359,12305); (12334,12332); (12342,12340); (12365,12363); (12157,12151); (12156,12150); (12371,12369); (12373,12367); (12372,12366);
(12377,12375); (7472,4262); (7004,4610); (12382,12380); (7934,4246); (12382,12381); (12383,12380); (12391,12389); (12393,12386); (12395,12385); (12397,12378); (12396,12379);
(12401,12399); (12359,12305); (12358,12304); (12407,12405); (12408,12402); (12411,12361); (12413,12299); (12373,12367); (12397,12378); (12419,12417); (12209,12203); (12208,12202);
(12425,12423); (12427,12421); (12426,12420); (12431,12429); (12413,12299); (12412,12298); (12437,12435); (12438,12432); (12441,12415); (12443,12293); (12427,12421); (12443,12293);
(12442,12292); (12451,12449); (12452,12446); (12455,12445); (12457,12287); (12245,12051); (12244,12050); (12463,12461); (12464,12458); (12246,12045); (12247,12044); (12471,12469);
(12472,12466); (12472,12467); (12473,12466); (12479,12477); (12452,12447); (12453,12446); (12485,12483); (12438,12433); (12439,12432); (12491,12489); (12408,12403); (12409,12402);
(12497,12495); (12354,12348); (12355,12349); (12503,12501); (12325,12319); (12324,12318); (12509,12507); (6220,5628); (6694,5208); (12514,12512); (6232,6048); (12514,12513);
(12515,12512); (12523,12521); (12525,12518); (12527,12517); (12529,12511); (6048,5770); (6532,5370); (12535,12533); (12534,12532); (12539,12537); (7004,5356); (12543,12540);
(12542,12541); (12547,12545); (12529,12511); (12528,12510); (12553,12551); (12554,12549); (12557,12531); (12559,12505); (12534,12532); (12542,12540); (12565,12563); (12393,12387);
(12392,12386); (12571,12569); (12573,12567); (12572,12566); (12577,12575); (7934,4262); (7472,4610); (12582,12580); (8408,4246); (12582,12581); (12583,12580); (12591,12589);
(12593,12586); (12595,12585); (12597,12578); (12596,12579); (12601,12599); (12559,12505); (12558,12504); (12607,12605); (12608,12602); (12611,12561); (12613,12499); (12573,12567);
(12597,12578); (12619,12617); (12201,12199); (12200,12198); (12625,12623); (12626,12621); (12627,12620); (12631,12629); (12613,12499); (12612,12498); (12637,12635); (12638,12632);
(12641,12615); (12643,12493); (12626,12621); (12643,12493); (12642,12492); (12651,12649); (12652,12646); (12655,12645); (12657,12487); (12457,12286); (12456,12287); (12663,12661);
(12665,12658); (12464,12459); (12465,12458); (12671,12669); (12673,12666); (12674,12481); (12677,12475); (12673,12667); (12672,12666); (12683,12681); (12685,12481); (12652,12647);
(12653,12646); (12691,12689); (12638,12633); (12639,12632); (12697,12695); (12608,12603); (12609,12602); (12703,12701); (12554,12548); (12555,12549); (12709,12707); (12525,12519);
(12524,12518); (12715,12713); (6220,6048); (6694,5628); (12720,12718); (6532,6232); (12720,12719); (12721,12718); (12729,12727); (12731,12724); (12733,12723); (12735,12717);
(6532,5770); (7004,5370); (12741,12739); (12740,12738); (12745,12743); (7472,5356); (12749,12746); (12748,12747); (12753,12751); (12735,12717); (12734,12716); (12759,12757);
(12760,12755); (12763,12737); (12765,12711); (12740,12738); (12748,12746); (12771,12769); (12593,12587); (12592,12586); (12777,12775); (12779,12773); (12778,12772); (12783,12781);
(8408,4262); (7934,4610); (12788,12786); (12791,12784); (12790,12785); (12795,12793); (12765,12711); (12764,12710); (12801,12799); (12802,12797); (12805,12767); (12807,12705);
(12779,12773); (12790,12784); (12813,12811); (8408,3624); (12817,12815); (12816,12814); (12821,12819); (12807,12705); (12806,12704); (12827,12825); (12828,12823); (12831,12809);
(12833,12699); (12816,12815); (12833,12699); (12832,12698); (12841,12839); (12842,12836); (12845,12835); (12847,12693); (12657,12486); (12656,12487); (12853,12851); (12855,12848);
(12665,12659); (12664,12658); (12861,12859); (12863,12856); (12863,12857); (12862,12856); (12869,12867); (12828,12822); (12829,12823); (12875,12873); (12802,12796); (12803,12797);
(12881,12879); (12760,12754); (12761,12755); (12887,12885); (12731,12725); (12730,12724); (12893,12891); (6532,6220); (6694,6048); (12898,12896); (7004,6232); (12898,12897);
(12899,12896); (12907,12905); (12909,12902); (12911,12901); (12913,12895); (7004,5770); (7472,5370); (12919,12917); (12918,12916); (12923,12921); (7934,5356); (12927,12924);
(12926,12925); (12931,12929); (12913,12895); (12912,12894)].
Definition g16 : list (positive * positive) := [
(12937,12935); (12938,12933); (12941,12915); (12943,12889); (12918,12916); (12926,12924); (12949,12947); (12789,12787); (12788,12786); (12955,12953); (12956,12951); (12957,12950);
(12961,12959); (12943,12889); (12942,12888); (12967,12965); (12968,12962); (12971,12945); (12973,12883); (12956,12951); (12973,12883); (12972,12882); (12981,12979); (12982,12976);
(12985,12975); (12987,12877); (12842,12837); (12843,12836); (12993,12991); (12995,12988); (12847,12692); (12846,12693); (13001,12999); (13003,12996); (12855,12849); (12854,12848);
(13009,13007); (13011,13004); (13012,12871); (13015,12865); (13017,12686); (13019,12678); (13011,13005); (13010,13004); (13025,13023); (13027,12871); (13028,12686); (12982,12977);
(12983,12976); (13035,13033); (12968,12963); (12969,12962); (13041,13039); (12938,12932); (12939,12933); (13047,13045); (12909,12903); (12908,12902); (13053,13051); (7004,6220);
(6694,6532); (13058,13056); (7472,6232); (13058,13057); (13059,13056); (13067,13065); (13069,13062); (13071,13061); (13073,13055); (7472,5770); (7934,5370); (13079,13077);
(13078,13076); (13083,13081); (8408,5356); (13087,13084); (13086,13085); (13091,13089); (13073,13055); (13072,13054); (13097,13095); (13098,13093); (13101,13075); (13103,13049);
(13078,13076); (13086,13084); (13109,13107); (8408,4610); (13113,13111); (13112,13110); (13117,13115); (13103,13049); (13102,13048); (13123,13121); (13124,13119); (13127,13105);
(13129,13043); (13112,13111); (13129,13043); (13128,13042); (13137,13135); (13138,13132); (13141,13131); (13143,13037); (12987,12876); (12986,12877); (13149,13147); (13151,13144);
(12995,12989); (12994,12988); (13157,13155); (13159,13152); (13003,12997); (13002,12996); (13165,13163); (13167,13160); (13167,13161); (13166,13160); (13173,13171); (13124,13118);
(13125,13119); (13179,13177); (13098,13092); (13099,13093); (13185,13183); (13069,13063); (13068,13062); (13191,13189); (7472,6220); (7004,6694); (13196,13194); (7934,6232);
(13196,13195); (13197,13194); (13205,13203); (13207,13200); (13209,13199); (13211,13193); (7934,5770); (8408,5370); (13217,13215); (13216,13214); (13221,13219); (13211,13193);
(13210,13192); (13227,13225); (13228,13222); (13231,13213); (13233,13187); (13216,13214); (13233,13187); (13232,13186); (13241,13239); (13242,13236); (13245,13235); (13247,13181);
(13138,13133); (13139,13132); (13253,13251); (13255,13248); (13143,13036); (13142,13037); (13261,13259); (13263,13256); (13151,13145); (13150,13144); (13269,13267); (13271,13264);
(13159,13153); (13158,13152); (13277,13275); (13279,13272); (13280,13175); (13283,13169); (13279,13273); (13278,13272); (13289,13287); (13291,13175); (13228,13223); (13229,13222);
(13297,13295); (13207,13201); (13206,13200); (13303,13301); (7934,6220); (7472,6694); (13308,13306); (8408,6232); (13308,13307); (13309,13306); (13317,13315); (13319,13312);
(13321,13311); (13323,13305); (8408,5770); (13323,13305); (13322,13304); (13331,13329); (13332,13326); (13335,13325); (13337,13299); (13242,13237); (13243,13236); (13343,13341);
(13345,13338); (13247,13180); (13246,13181); (13351,13349); (13353,13346); (13255,13249); (13254,13248); (13359,13357); (13361,13354); (13263,13257); (13262,13256); (13367,13365);
(13369,13362); (13271,13265); (13270,13264); (13375,13373); (13377,13370); (8408,6220); (7934,6694); (13382,13380); (13319,13313); (13318,13312); (13389,13387); (13391,13384);
(13332,13327); (13333,13326); (13397,13395); (13399,13392); (13337,13298); (13336,13299); (13405,13403); (13407,13400); (13345,13339); (13344,13338); (13413,13411); (13415,13408);
(13353,13347); (13352,13346); (13421,13419); (13423,13416); (13361,13355); (13360,13354); (13429,13427); (13431,13424); (13369,13363); (13368,13362); (13437,13435); (13439,13432);
(13377,13371); (13376,13370); (13445,13443); (13447,13440); (13449,13379); (13451,13292); (13453,13284); (13455,13030); (13457,13020); (13459,12280); (13461,12266); (13463,6174);
(13465,6162); (13467,3268); (13469,3258); (13471,2310); (13473,2302); (13475,1650); (13477,1645); (13479,1348); (13478,1349); (13483,13481); (821,715); (859,757);
(13488,13486); (13488,821); (13493,715); (13492,714); (13497,13495); (13498,13490); (13488,820); (13489,821); (13505,13503); (858,757); (859,756); (13511,13509);
(13512,13506); (800,757); (13517,13514); (13519,13514); (13521,13500); (13523,13500); (13525,13491); (13524,13490); (13529,13527); (13531,682); (473,367); (511,409);
(13536,13534); (13536,473); (13540,367); (13541,366); (13545,13543); (13547,13538); (13536,472); (13537,473); (13553,13551); (511,409); (510,408); (13559,13557);
(13561,13554); (452,409); (13565,13562); (13567,13562); (13569,13548); (13571,13548); (13573,13539); (13572,13538); (13577,13575); (13579,334); (13580,13532); (13581,13533);
(13580,13532); (13587,13585); (683,129); (13530,682); (13593,13591); (335,65); (13578,334); (13599,13597); (13601,13595); (13603,13589); (13603,13589); (13602,13588);
(13609,13607); (335,62); (13579,334); (13615,13613); (683,127); (13530,682); (13621,13619); (13622,13617); (13600,13594); (13601,13595); (13629,13627); (13631,13624);
(13631,13625); (13630,13624); (13637,13635); (335,61); (13568,13547); (13643,13539); (13642,13538); (13647,13645); (13648,334); (13651,13641); (683,125); (13520,13498);
(13657,13491); (13656,13490); (13661,13659); (13662,682); (13665,13655); (13666,13652); (13622,13616); (13623,13617); (13673,13671); (13675,13668); (13676,13639); (13679,13633);
(13675,13669); (13674,13668); (13685,13683); (13687,13639); (335,59); (13569,13547); (13568,13546); (13695,13693); (13697,334); (13699,13691); (683,123); (13521,13499);
(13520,13498); (13707,13705); (13708,682); (13711,13703); (13712,13700); (13666,13652); (13667,13653); (13719,13717); (13720,13714); (13720,13715); (13721,13714); (13727,13725);
(335,57); (13564,13561); (13733,13555); (13732,13554)].
Definition g17 : list (positive * positive) := [
(13737,13735); (13738,334); (13741,13731); (683,121); (13516,13512); (13747,13507); (13746,13506); (13751,13749); (13752,682); (13755,13745); (13756,13742); (13712,13700);
(13713,13701); (13763,13761); (13764,13758); (13766,13729); (13769,13723); (13771,13688); (13773,13680); (13764,13759); (13765,13758); (13779,13777); (13781,13729); (13782,13688);
(335,55); (13565,13561); (13564,13560); (13791,13789); (13793,334); (13795,13787); (683,119); (13517,13513); (13516,13512); (13803,13801); (13804,682); (13807,13799);
(13808,13796); (13756,13742); (13757,13743); (13815,13813); (13816,13810); (13816,13811); (13817,13810); (13823,13821); (335,53); (540,334); (13829,13827); (683,117);
(888,682); (13835,13833); (13836,13830); (13808,13796); (13809,13797); (13843,13841); (13844,13838); (13846,13825); (13849,13819); (13836,13830); (13837,13831); (13855,13853);
(683,115); (801,682); (13861,13859); (335,51); (453,334); (13867,13865); (13869,13863); (13871,13856); (13844,13839); (13845,13838); (13877,13875); (13879,13825);
(13880,13872); (13883,13850); (13885,13784); (13887,13774); (13889,13610); (13891,13605); (13893,13583); (13892,13582); (13897,13895); (13899,13485); (13885,13782); (13903,13770);
(13905,13686); (13904,13687); (13909,13907); (13905,13687); (13913,13677); (13915,13638); (13914,13639); (13919,13917); (13921,13911); (13885,13781); (13925,13767); (13927,13729);
(13926,13728); (13931,13929); (13885,13780); (13884,13781); (13937,13935); (13939,13932); (13940,13922); (13879,13873); (13878,13872); (13947,13945); (13879,13872); (13951,13847);
(13953,13825); (13952,13824); (13957,13955); (13958,13949); (13871,13856); (13870,13857); (13965,13963); (13868,13862); (13869,13863); (13971,13969); (13973,13966); (13974,13960);
(13976,13942); (13889,13611); (13888,13610); (13983,13981); (13985,13978); (13987,13898); (13986,13899); (13991,13989); (13992,13484); (13995,13901); (13973,13484); (13972,13485);
(14001,13999); (13966,13485); (13973,13966); (13972,13967); (14009,14007); (14010,13484); (14013,14005); (14014,14003); (13959,13485); (13974,13949); (14021,13958); (14020,13959);
(14025,14023); (14026,13484); (14029,14019); (13949,13485); (13975,13949); (13974,13948); (14037,14035); (14039,13484); (14041,14033); (14042,14031); (14044,14016); (13939,13485);
(13977,13939); (13976,13938); (14053,14051); (14055,13484); (14057,14049); (13932,13485); (13976,13939); (14063,13932); (14062,13933); (14067,14065); (14069,13484); (14071,14061);
(14072,14058); (13920,13485); (13976,13940); (14078,13911); (14081,13921); (14080,13920); (14085,14083); (14086,13484); (14089,14077); (13911,13485); (14079,13911); (14078,13910);
(14097,14095); (14099,13484); (14101,14093); (14102,14091); (14104,14074); (14106,14046); (13985,13485); (13985,13979); (13984,13978); (14115,14113); (14117,13484); (14119,14111);
(14120,13997); (14122,14108); (14125,13997); (14127,197); (14128,275); (14130,297); (14132,303); (14134,291); (14136,257); (13467,3266); (14141,3254); (14143,2778);
(14145,2769); (14147,2523); (14146,2522); (14151,14149); (14152,13485); (13471,2309); (13470,2308); (14159,14157); (14160,13484); (14163,14155); (14164,14139); (14058,14031);
(14042,14014); (14170,14168); (14172,14072); (14175,14102); (14174,14103); (14179,14177); (14102,14072); (14120,14091); (14184,14182); (14186,14172); (14188,13996); (14189,13997);
(14193,14191); (14182,14172); (14196,14091); (14199,14121); (14198,14120); (14203,14201); (14205,14194); (14197,14090); (14196,14091); (14211,14209); (14213,14180); (14173,14072);
(14172,14073); (14219,14217); (14170,14031); (14223,14058); (14222,14059); (14227,14225); (14229,14221); (14230,14214); (14233,14214); (14235,14206); (14237,14206); (14239,14195);
(14238,14194); (14243,14241); (14014,14002); (14042,14014); (14043,14015); (14251,14249); (14170,14030); (14171,14031); (14257,14255); (14258,14253); (14260,14246); (14262,14232);
(14264,14206); (14267,14244); (14269,14194); (14270,14181); (14270,14220); (14270,14228); (14270,14259); (14270,14252); (14270,14015); (14270,14003); (14270,14212); (14270,14204);
(14289,14287); (14270,14195); (14293,14290); (14294,14164); (14297,14285); (14160,13485); (13471,2308); (14303,2299); (14305,2059); (14304,2058); (14309,14307); (14310,13484);
(14313,14301); (14314,14294); (14317,14284); (14319,14299); (14321,14283); (14310,13485); (13475,1651); (13474,1650); (14329,14327); (14330,13484); (14333,14325); (14334,14294);
(14337,14285); (14330,13485); (14341,14294); (14343,14284); (14345,14339); (14347,14282); (14349,14323); (14350,14281); (14352,14279); (14354,14276); (14356,14274); (14358,14273);
(14360,14138); (14363,14167); (14314,14139); (14317,14285); (14337,14284); (14371,14369); (14373,14283); (14342,14285); (14377,14282); (14379,14375); (14380,14281); (14382,14279);
(14384,14276); (14386,14274); (14388,14273); (14390,14138); (14393,14367); (14395,14365); (13467,3264); (14399,3251); (14401,3017); (14400,3016); (14405,14403); (14406,13485);
(14143,2779); (14142,2778); (14413,14411); (14414,13484); (14417,14409); (14418,14139); (14418,14294); (14423,14285); (14414,13485); (14152,13484); (14429,14427); (14430,14294);
(14433,14284); (14435,14425); (14437,14283); (14321,14282); (14441,14439); (14443,14281); (14346,14283); (14447,14280); (14449,14445); (14450,14279); (14452,14276); (14454,14274);
(14456,14273); (14458,14138); (14461,14421); (14430,14139); (14433,14285); (14297,14284); (14469,14467); (14471,14283); (14373,14282); (14475,14473); (14477,14281); (14376,14283);
(14481,14280); (14483,14479); (14484,14279); (14486,14276); (14488,14274); (14490,14273); (14492,14138); (14495,14465); (14497,14463); (13467,3265); (13466,3264); (14503,14501);
(14504,13485); (14406,13484); (14509,14507); (14510,14139); (14510,14294); (14515,14285); (14423,14284); (14519,14517); (14521,14283); (14471,14282); (14525,14523); (14527,14281);
(14381,14280); (14531,14529); (14532,14279); (14534,14276)].
Definition g18 : list (positive * positive) := [
(14536,14274); (14538,14273); (14540,14138); (14543,14513); (13463,6172); (14547,6158); (14549,4580); (14551,4568); (14553,3912); (14555,3903); (14557,3588); (14556,3589);
(14561,14559); (14563,13485); (14504,13484); (14567,14565); (14569,14139); (14568,14294); (14573,14285); (14515,14284); (14577,14575); (14579,14283); (14437,14282); (14583,14581);
(14585,14281); (14351,14280); (14589,14587); (14590,14279); (14592,14276); (14594,14274); (14596,14273); (14599,14138); (14601,14571); (14602,14545); (14604,14498); (14549,4578);
(14609,4565); (14611,4218); (14610,4219); (14615,14613); (14617,13485); (14553,3913); (14552,3912); (14623,14621); (14624,13484); (14627,14619); (14628,14139); (14446,14281);
(14633,14278); (14628,14294); (14637,14285); (14624,13485); (14563,13484); (14643,14641); (14644,14294); (14647,14284); (14649,14639); (14651,14283); (14579,14282); (14655,14653);
(14657,14281); (14443,14280); (14661,14659); (14663,14279); (14665,14635); (14666,14276); (14668,14274); (14670,14273); (14672,14138); (14675,14631); (14644,14139); (14480,14281);
(14681,14278); (14647,14285); (14573,14284); (14687,14685); (14689,14283); (14521,14282); (14693,14691); (14695,14281); (14477,14280); (14699,14697); (14701,14279); (14703,14683);
(14704,14276); (14706,14274); (14708,14273); (14710,14138); (14713,14679); (14715,14677); (14549,4579); (14548,4578); (14721,14719); (14722,13485); (14617,13484); (14727,14725);
(14728,14139); (14383,14278); (14728,14294); (14735,14285); (14637,14284); (14739,14737); (14741,14283); (14689,14282); (14745,14743); (14747,14281); (14527,14280); (14751,14749);
(14753,14279); (14755,14733); (14756,14276); (14758,14274); (14760,14273); (14762,14138); (14765,14731); (13463,6170); (14769,6154); (14771,5320); (14773,5311); (14775,4956);
(14774,4957); (14779,14777); (14781,13485); (14722,13484); (14785,14783); (14787,14139); (14353,14278); (14786,14294); (14793,14285); (14735,14284); (14797,14795); (14799,14283);
(14651,14282); (14803,14801); (14805,14281); (14585,14280); (14809,14807); (14811,14279); (14813,14791); (14814,14276); (14816,14274); (14818,14273); (14821,14138); (14823,14789);
(14824,14767); (14826,14716); (13463,6168); (14831,6151); (14833,5737); (14832,5736); (14837,14835); (14838,13485); (14771,5321); (14770,5320); (14845,14843); (14846,13484);
(14849,14841); (14850,14139); (14451,14278); (14850,14294); (14857,14285); (14846,13485); (14781,13484); (14863,14861); (14864,14294); (14867,14284); (14869,14859); (14871,14283);
(14799,14282); (14875,14873); (14877,14281); (14657,14280); (14881,14879); (14883,14279); (14885,14855); (14886,14276); (14888,14274); (14890,14273); (14892,14138); (14895,14853);
(14864,14139); (14485,14278); (14867,14285); (14793,14284); (14905,14903); (14907,14283); (14741,14282); (14911,14909); (14913,14281); (14695,14280); (14917,14915); (14919,14279);
(14921,14901); (14922,14276); (14924,14274); (14926,14273); (14928,14138); (14931,14899); (14933,14897); (13463,6169); (13462,6168); (14939,14937); (14940,13485); (14838,13484);
(14945,14943); (14946,14139); (14533,14278); (14946,14294); (14953,14285); (14857,14284); (14957,14955); (14959,14283); (14907,14282); (14963,14961); (14965,14281); (14747,14280);
(14969,14967); (14971,14279); (14973,14951); (14974,14276); (14976,14274); (14978,14273); (14980,14138); (14983,14949); (13459,12278); (14987,12262); (14989,9814); (14991,9800);
(14993,8052); (14995,8040); (14997,7116); (14999,7107); (15001,6641); (15000,6640); (15005,15003); (15006,13485); (14940,13484); (15011,15009); (15013,14139); (14591,14278);
(15012,14294); (15019,14285); (14953,14284); (15023,15021); (15025,14283); (14871,14282); (15029,15027); (15031,14281); (14805,14280); (15035,15033); (15037,14279); (15039,15017);
(15040,14276); (15042,14274); (15044,14273); (15047,14138); (15049,15015); (15050,14985); (15052,14934); (15054,14828); (14993,8050); (15059,8037); (15061,7581); (15060,7580);
(15065,15063); (15066,13485); (14997,7117); (14996,7116); (15073,15071); (15074,13484); (15077,15069); (15078,14139); (14663,14278); (15078,14294); (15085,14285); (15074,13485);
(15006,13484); (15091,15089); (15092,14294); (15095,14284); (15097,15087); (15099,14283); (15025,14282); (15103,15101); (15105,14281); (14877,14280); (15109,15107); (15111,14279);
(15113,15083); (15115,14276); (14632,14279); (15119,14277); (15121,15117); (15122,14274); (15124,14273); (15126,14138); (15129,15081); (15092,14139); (14701,14278); (15095,14285);
(15019,14284); (15139,15137); (15141,14283); (14959,14282); (15145,15143); (15147,14281); (14913,14280); (15151,15149); (15153,14279); (15155,15135); (15157,14276); (14680,14279);
(15161,14277); (15163,15159); (15164,14274); (15166,14273); (15168,14138); (15171,15133); (15173,15131); (14993,8051); (14992,8050); (15179,15177); (15180,13485); (15066,13484);
(15185,15183); (15186,14139); (14753,14278); (15186,14294); (15193,14285); (15085,14284); (15197,15195); (15199,14283); (15141,14282); (15203,15201); (15205,14281); (14965,14280);
(15209,15207); (15211,14279); (15213,15191); (15215,14276); (14385,14277); (15219,15217); (15220,14274); (15222,14273); (15224,14138); (15227,15189); (14989,9812); (15231,9796);
(15233,8964); (15235,8955); (15237,8517); (15236,8516); (15241,15239); (15242,13485); (15180,13484); (15247,15245); (15249,14139); (14811,14278); (15248,14294); (15255,14285);
(15193,14284); (15259,15257); (15261,14283); (15099,14282); (15265,15263); (15267,14281); (15031,14280); (15271,15269); (15273,14279); (15275,15253); (15277,14276); (14355,14277);
(15281,15279); (15282,14274); (15284,14273); (15287,14138); (15289,15251); (15290,15229); (15292,15174); (15233,8965); (15232,8964); (15299,15297); (15300,13485); (15242,13484);
(15305,15303); (15306,14139); (14919,14278); (15306,14294); (15313,14285); (15255,14284); (15317,15315); (15319,14283); (15199,14282); (15323,15321); (15325,14281); (15147,14280);
(15329,15327); (15331,14279); (15333,15311); (15335,14276)].
Definition g19 : list (positive * positive) := [
(14487,14277); (15339,15337); (15340,14274); (15342,14273); (15344,14138); (15347,15309); (14989,9810); (15351,9793); (15353,9399); (15352,9398); (15357,15355); (15358,13485);
(15300,13484); (15363,15361); (15365,14139); (14883,14278); (15364,14294); (15371,14285); (15313,14284); (15375,15373); (15377,14283); (15261,14282); (15381,15379); (15383,14281);
(15105,14280); (15387,15385); (15389,14279); (15391,15369); (15393,14276); (14453,14277); (15397,15395); (15398,14274); (15400,14273); (15403,14138); (15405,15367); (15406,15349);
(14989,9811); (14988,9810); (15413,15411); (15414,13485); (15358,13484); (15419,15417); (15420,14139); (14971,14278); (15420,14294); (15427,14285); (15371,14284); (15431,15429);
(15433,14283); (15319,14282); (15437,15435); (15439,14281); (15205,14280); (15443,15441); (15445,14279); (15447,15425); (15449,14276); (14535,14277); (15453,15451); (15454,14274);
(15456,14273); (15458,14138); (15461,15423); (13459,12276); (15465,12258); (15467,11200); (15469,11188); (15471,10553); (15473,10543); (15475,10201); (15474,10200); (15479,15477);
(15480,13485); (15414,13484); (15485,15483); (15486,14139); (15037,14278); (15486,14294); (15493,14285); (15427,14284); (15497,15495); (15499,14283); (15377,14282); (15503,15501);
(15505,14281); (15267,14280); (15509,15507); (15511,14279); (15513,15491); (15515,14276); (14593,14277); (15519,15517); (15520,14274); (15522,14273); (15524,14138); (15527,15489);
(135,133); (15530,137); (15471,10552); (15470,10553); (15537,15535); (15538,13485); (15480,13484); (15543,15541); (15545,14139); (15153,14278); (15544,14294); (15551,14285);
(15493,14284); (15555,15553); (15557,14283); (15433,14282); (15561,15559); (15563,14281); (15325,14280); (15567,15565); (15569,14279); (15571,15549); (15573,14276); (14705,14277);
(15577,15575); (15578,14274); (15580,14273); (15583,14138); (15585,15547); (15467,11199); (15589,11185); (15590,10874); (15591,10875); (15595,15593); (15596,13485); (15538,13484);
(15601,15599); (15602,14139); (15111,14278); (15602,14294); (15609,14285); (15551,14284); (15613,15611); (15615,14283); (15499,14282); (15619,15617); (15621,14281); (15383,14280);
(15625,15623); (15627,14279); (15629,15607); (15631,14276); (14667,14277); (15635,15633); (15636,14274); (15638,14273); (15640,14138); (15643,15605); (8408,6694); (15646,13484);
(15646,13485); (13383,13381); (13382,13380); (15655,15653); (15656,13484); (15659,15651); (15660,15649); (13391,13385); (13390,13384); (15667,15665); (15668,13485); (13399,13393);
(13398,13392); (15675,15673); (15676,13484); (15679,15671); (15657,13485); (15668,13484); (15685,15683); (15687,15681); (15688,15662); (13407,13401); (13406,13400); (15695,15693);
(15696,13485); (13415,13409); (13414,13408); (15703,15701); (15704,13484); (15707,15699); (15676,13485); (15696,13484); (15713,15711); (15715,15709); (13423,13417); (13422,13416);
(15721,15719); (15722,13485); (13431,13425); (13430,13424); (15729,15727); (15730,13484); (15733,15725); (15704,13485); (15722,13484); (15739,15737); (15741,15735); (15742,15716);
(15744,15690); (13439,13433); (13438,13432); (15751,15749); (15752,13485); (13447,13441); (13446,13440); (15759,15757); (15760,13484); (15763,15755); (15730,13485); (15752,13484);
(15769,15767); (15771,15765); (13451,13290); (13450,13291); (15777,15775); (15778,13485); (13451,13291); (15783,13281); (15785,13175); (15784,13174); (15789,15787); (15791,13484);
(15793,15781); (15760,13485); (15778,13484); (15799,15797); (15801,15795); (15802,15772); (13455,13026); (13454,13027); (15809,15807); (15810,13485); (13455,13027); (15815,13013);
(15817,12871); (15816,12870); (15821,15819); (15823,13484); (15825,15813); (15791,13485); (15810,13484); (15831,15829); (15833,15827); (13455,13028); (15837,13016); (15839,12684);
(15838,12685); (15843,15841); (15844,13485); (15839,12685); (15849,12675); (15851,12481); (15850,12480); (15855,15853); (15857,13484); (15859,15847); (15823,13485); (15844,13484);
(15865,15863); (15867,15861); (15868,15834); (15870,15804); (15872,15746); (13459,12273); (13458,12272); (15879,15877); (15880,13485); (13459,12272); (15885,12251); (15887,12033);
(15886,12032); (15891,15889); (15892,13484); (15895,15883); (15857,13485); (15880,13484); (15901,15899); (15903,15897); (13459,12274); (15907,12254); (15909,11762); (15908,11763);
(15913,15911); (15914,13485); (15909,11763); (15919,11753); (15921,11479); (15920,11478); (15925,15923); (15926,13484); (15929,15917); (15892,13485); (15914,13484); (15935,15933);
(15937,15931); (15938,15904); (15467,11198); (15466,11199); (15945,15943); (15946,13485); (15596,13484); (15951,15949); (15926,13485); (15946,13484); (15957,15955); (15959,15953);
(15960,15940); (15962,15874); (15965,14139); (14293,14289); (15968,14285); (15970,14283); (15972,14281); (15974,14279); (15976,14276); (15978,14274); (15980,14273); (15982,14287);
(15985,15648); (15968,14284); (15988,14283); (15990,14281); (15992,14279); (15994,14276); (15996,14274); (15998,14273); (16000,14287); (16003,15985); (16002,15984); (16007,16005);
(16009,15661); (16011,15987); (15970,14282); (16014,14281); (16016,14279); (16018,14276); (16020,14274); (16022,14273); (16024,14287); (16003,15985); (16028,16026); (16029,16027);
(16033,16031); (16034,15686); (15988,14282); (16038,14281); (16040,14279); (16042,14276); (16044,14274); (16046,14273); (16048,14287); (16028,16027); (16052,16051); (16053,16050);
(16057,16055); (16059,15680); (16061,16037); (16062,16012); (15972,14280); (16066,14279); (16068,14276); (16070,14274); (16072,14273); (16074,14287); (16051,16027); (16078,16029);
(16081,16078); (16082,16076); (16083,16077); (16087,16085); (16088,15714); (15990,14280); (16092,14279); (16094,14276); (16096,14274); (16098,14273); (16100,14287); (16082,16077);
(16104,16103); (16105,16102); (16109,16107); (16111,15708); (16113,16091); (16014,14280); (16116,14279); (16118,14276); (16120,14274); (16122,14273); (16124,14287); (16103,16077);
(16128,16083); (16131,16128); (16133,16126); (16132,16127)].
Definition g20 : list (positive * positive) := [
(16137,16135); (16139,15740); (16038,14280); (16142,14279); (16144,14276); (16146,14274); (16148,14273); (16150,14287); (16132,16127); (16154,16153); (16155,16152); (16159,16157);
(16161,15734); (16163,16141); (16164,16114); (16166,16064); (15974,14278); (16170,14276); (16172,14274); (16174,14273); (16176,14287); (16153,16127); (16180,16129); (16183,16180);
(16180,16128); (16186,16083); (16189,16184); (16190,16178); (16191,16179); (16195,16193); (16196,15770); (15992,14278); (16200,14276); (16202,14274); (16204,14273); (16206,14287);
(16190,16179); (16210,16209); (16211,16208); (16215,16213); (16217,15764); (16219,16199); (16016,14278); (16222,14276); (16224,14274); (16226,14273); (16228,14287); (16209,16179);
(16232,16191); (16235,16232); (16237,16230); (16236,16231); (16241,16239); (16243,15800); (16040,14278); (16246,14276); (16248,14274); (16250,14273); (16252,14287); (16236,16231);
(16256,16255); (16257,16254); (16261,16259); (16263,15794); (16265,16245); (16266,16220); (16066,14278); (16270,14276); (16272,14274); (16274,14273); (16276,14287); (16255,16231);
(16280,16233); (16283,16280); (16280,16232); (16286,16191); (16289,16284); (16290,16278); (16291,16279); (16295,16293); (16296,15832); (16092,14278); (16300,14276); (16302,14274);
(16304,14273); (16306,14287); (16290,16279); (16310,16309); (16311,16308); (16315,16313); (16317,15826); (16319,16299); (16116,14278); (16322,14276); (16324,14274); (16326,14273);
(16328,14287); (16309,16279); (16332,16291); (16335,16332); (16337,16330); (16336,16331); (16341,16339); (16343,15866); (16142,14278); (16346,14276); (16348,14274); (16350,14273);
(16352,14287); (16336,16331); (16356,16355); (16357,16354); (16361,16359); (16363,15860); (16365,16345); (16366,16320); (16368,16268); (16370,16168); (15976,14277); (16374,14274);
(16376,14273); (16378,14287); (16355,16331); (16382,16333); (16385,16382); (16382,16332); (16388,16285); (16391,16386); (16388,16286); (16394,16191); (16397,16392); (16398,16380);
(16399,16381); (16403,16401); (16404,15902); (15994,14277); (16408,14274); (16410,14273); (16412,14287); (16398,16381); (16416,16415); (16417,16414); (16421,16419); (16423,15896);
(16425,16407); (16018,14277); (16428,14274); (16430,14273); (16432,14287); (16415,16381); (16436,16399); (16439,16436); (16441,16434); (16440,16435); (16445,16443); (16447,15936);
(16042,14277); (16450,14274); (16452,14273); (16454,14287); (16440,16435); (16458,16457); (16459,16456); (16463,16461); (16465,15930); (16467,16449); (16468,16426); (16068,14277);
(16472,14274); (16474,14273); (16476,14287); (16457,16435); (16480,16437); (16483,16480); (16480,16436); (16486,16399); (16489,16484); (16490,16478); (16491,16479); (16495,16493);
(16496,15958); (16094,14277); (16500,14274); (16502,14273); (16504,14287); (16490,16479); (16508,16507); (16509,16506); (16513,16511); (16515,15952); (16517,16499); (16118,14277);
(16520,14274); (16522,14273); (16524,14287); (16507,16479); (16528,16491); (16531,16528); (16532,16526); (16533,16527); (16537,16535); (16538,15602); (16144,14277); (16542,14274);
(16544,14273); (16546,14287); (16532,16527); (16551,16549); (16550,16548); (16555,16553); (16556,15544); (16559,16541); (16560,16518); (16562,16470); (16170,14277); (16566,14274);
(16568,14273); (16570,14287); (16549,16527); (16574,16529); (16577,16574); (16574,16528); (16580,16485); (16583,16578); (16580,16486); (16586,16399); (16589,16584); (16590,16572);
(16591,16573); (16595,16593); (16596,15486); (16200,14277); (16600,14274); (16602,14273); (16604,14287); (16590,16573); (16608,16607); (16609,16606); (16613,16611); (16615,15420);
(16617,16599); (16222,14277); (16620,14274); (16622,14273); (16624,14287); (16607,16573); (16628,16591); (16631,16628); (16632,16626); (16633,16627); (16637,16635); (16638,15364);
(16246,14277); (16642,14274); (16644,14273); (16646,14287); (16632,16627); (16650,16649); (16651,16648); (16655,16653); (16657,15306); (16659,16641); (16660,16618); (16270,14277);
(16664,14274); (16666,14273); (16668,14287); (16649,16627); (16672,16629); (16675,16672); (16672,16628); (16678,16591); (16681,16676); (16682,16670); (16683,16671); (16687,16685);
(16688,15248); (16300,14277); (16692,14274); (16694,14273); (16696,14287); (16682,16671); (16700,16699); (16701,16698); (16705,16703); (16707,15186); (16709,16691); (16322,14277);
(16712,14274); (16714,14273); (16716,14287); (16699,16671); (16720,16683); (16723,16720); (16724,16718); (16725,16719); (16729,16727); (16730,15078); (16346,14277); (16734,14274);
(16736,14273); (16738,14287); (16724,16719); (16742,16741); (16743,16740); (16747,16745); (16749,15092); (16751,16733); (16752,16710); (16754,16662); (16756,16564); (16758,16372);
(15978,14275); (16762,14273); (16764,14287); (16741,16719); (16768,16721); (16771,16768); (16768,16720); (16774,16677); (16777,16772); (16774,16678); (16780,16585); (16783,16778);
(16780,16586); (16786,16399); (16789,16784); (16790,16766); (16791,16767); (16795,16793); (16796,15012); (15996,14275); (16800,14273); (16802,14287); (16790,16767); (16807,16805);
(16806,16804); (16811,16809); (16812,14946); (16815,16799); (16020,14275); (16818,14273); (16820,14287); (16805,16767); (16824,16791); (16827,16824); (16828,16822); (16829,16823);
(16833,16831); (16834,14850); (16044,14275); (16838,14273); (16840,14287); (16828,16823); (16844,16843); (16845,16842); (16849,16847); (16851,14864); (16853,16837); (16854,16816);
(16070,14275); (16858,14273); (16860,14287); (16843,16823); (16864,16825); (16867,16864); (16864,16824); (16870,16791); (16873,16868); (16874,16862); (16875,16863); (16879,16877);
(16880,14786); (16096,14275); (16884,14273); (16886,14287); (16874,16863); (16890,16889); (16891,16888); (16895,16893); (16897,14728); (16899,16883); (16120,14275); (16902,14273);
(16904,14287); (16889,16863); (16908,16875); (16911,16908); (16912,16906); (16913,16907); (16917,16915); (16918,14628); (16146,14275); (16922,14273); (16924,14287); (16912,16907);
(16928,16927); (16929,16926); (16933,16931); (16935,14644)].
Definition g21 : list (positive * positive) := [
(16937,16921); (16938,16900); (16940,16856); (16172,14275); (16944,14273); (16946,14287); (16927,16907); (16950,16909); (16953,16950); (16950,16908); (16956,16869); (16959,16954);
(16956,16870); (16962,16791); (16965,16960); (16966,16948); (16967,16949); (16971,16969); (16972,14568); (16202,14275); (16976,14273); (16978,14287); (16966,16949); (16982,16981);
(16983,16980); (16987,16985); (16989,14510); (16991,16975); (16224,14275); (16994,14273); (16996,14287); (16981,16949); (17000,16967); (17003,17000); (17004,16998); (17005,16999);
(17009,17007); (17010,14418); (16248,14275); (17014,14273); (17016,14287); (17004,16999); (17020,17019); (17021,17018); (17025,17023); (17027,14430); (17029,17013); (17030,16992);
(16272,14275); (17034,14273); (17036,14287); (17019,16999); (17040,17001); (17043,17040); (17040,17000); (17046,16967); (17049,17044); (17050,17038); (17051,17039); (17055,17053);
(17056,14164); (16302,14275); (17060,14273); (17062,14287); (17050,17039); (17066,17065); (17067,17064); (17071,17069); (17073,14314); (17075,17059); (16324,14275); (17078,14273);
(17080,14287); (17065,17039); (17065,17039); (17086,17051); (17089,17084); (17090,17082); (17091,17083); (17095,17093); (17096,14334); (16348,14275); (17100,14273); (17102,14287);
(17090,17083); (17107,17104); (17106,17105); (17111,17109); (17113,14341); (17115,17099); (17116,17076); (17118,17032); (17120,16942); (17122,16760); (15648,14139); (15770,14294);
(17129,14285); (15764,14294); (17133,14284); (17135,17131); (17137,14283); (15800,14294); (17141,14285); (15794,14294); (17145,14284); (17147,17143); (17149,14282); (17151,17139);
(17153,14281); (15832,14294); (17157,14285); (15826,14294); (17161,14284); (17163,17159); (17165,14283); (15866,14294); (17169,14285); (15860,14294); (17173,14284); (17175,17171);
(17177,14282); (17179,17167); (17181,14280); (17183,17155); (17185,14278); (15648,14294); (17189,14285); (15661,14294); (17193,14284); (17195,17191); (17197,14283); (15686,14294);
(17201,14285); (15680,14294); (17205,14284); (17207,17203); (17209,14282); (17211,17199); (17213,14281); (15714,14294); (17217,14285); (15708,14294); (17221,14284); (17223,17219);
(17225,14283); (15740,14294); (17229,14285); (15734,14294); (17233,14284); (17235,17231); (17237,14282); (17239,17227); (17241,14280); (17243,17215); (17245,14279); (17247,17187);
(17249,14276); (15511,14278); (15902,14294); (17255,14285); (15896,14294); (17259,14284); (17261,17257); (17263,14283); (15936,14294); (17267,14285); (15930,14294); (17271,14284);
(17273,17269); (17275,14282); (17277,17265); (17279,14281); (15958,14294); (17283,14285); (15952,14294); (17287,14284); (17289,17285); (17291,14283); (15615,14282); (17295,17293);
(17297,14280); (17299,17281); (17301,14279); (17303,17253); (17305,14277); (17307,17251); (17309,14274); (15043,14275); (17313,17311); (17314,14273); (17316,14138); (17319,17127);
(15661,14139); (17133,14285); (17141,14284); (17327,17325); (17329,14283); (17145,14285); (17157,14284); (17335,17333); (17337,14282); (17339,17331); (17341,14281); (17161,14285);
(17169,14284); (17347,17345); (17349,14283); (17173,14285); (17255,14284); (17355,17353); (17357,14282); (17359,17351); (17361,14280); (17363,17343); (17365,14278); (17193,14285);
(17201,14284); (17371,17369); (17373,14283); (17205,14285); (17217,14284); (17379,17377); (17381,14282); (17383,17375); (17385,14281); (17221,14285); (17229,14284); (17391,17389);
(17393,14283); (17233,14285); (17129,14284); (17399,17397); (17401,14282); (17403,17395); (17405,14280); (17407,17387); (17409,14279); (17411,17367); (17413,14276); (15445,14278);
(17259,14285); (17267,14284); (17421,17419); (17423,14283); (17271,14285); (17283,14284); (17429,17427); (17431,14282); (17433,17425); (17435,14281); (17287,14285); (15609,14284);
(17441,17439); (17443,14283); (15557,14282); (17447,17445); (17449,14280); (17451,17437); (17453,14279); (17455,17417); (17457,14277); (17459,17415); (17461,14274); (14977,14275);
(17465,17463); (17466,14273); (17468,14138); (17471,17323); (17472,17320); (15686,14139); (17149,14283); (17165,14282); (17481,17479); (17483,14281); (17177,14283); (17263,14282);
(17489,17487); (17491,14280); (17493,17485); (17495,14278); (17209,14283); (17225,14282); (17501,17499); (17503,14281); (17237,14283); (17137,14282); (17509,17507); (17511,14280);
(17513,17505); (17515,14279); (17517,17497); (17519,14276); (15389,14278); (17275,14283); (17291,14282); (17527,17525); (17529,14281); (15621,14280); (17533,17531); (17535,14279);
(17537,17523); (17539,14277); (17541,17521); (17543,14274); (14889,14275); (17547,17545); (17548,14273); (17550,14138); (17553,17477); (15680,14139); (17337,14283); (17349,14282);
(17561,17559); (17563,14281); (17357,14283); (17423,14282); (17569,17567); (17571,14280); (17573,17565); (17575,14278); (17381,14283); (17393,14282); (17581,17579); (17583,14281);
(17401,14283); (17329,14282); (17589,17587); (17591,14280); (17593,17585); (17595,14279); (17597,17577); (17599,14276); (15331,14278); (17431,14283); (17443,14282); (17607,17605);
(17609,14281); (15563,14280); (17613,17611); (17615,14279); (17617,17603); (17619,14277); (17621,17601); (17623,14274); (14925,14275); (17627,17625); (17628,14273); (17630,14138);
(17633,17557); (17634,17554); (17636,17474); (15714,14139); (17181,14281); (17279,14280); (17645,17643); (17647,14278); (17241,14281); (17153,14280); (17653,17651); (17655,14279);
(17657,17649); (17659,14276); (15273,14278); (17297,14281); (15505,14280); (17667,17665); (17669,14279); (17671,17663); (17673,14277); (17675,17661); (17677,14274); (14817,14275);
(17681,17679); (17682,14273); (17684,14138); (17687,17641); (15708,14139); (17361,14281); (17435,14280); (17695,17693); (17697,14278); (17405,14281); (17341,14280); (17703,17701);
(17705,14279); (17707,17699); (17709,14276); (15211,14278); (17449,14281); (15439,14280); (17717,17715); (17719,14279); (17721,17713); (17723,14277); (17725,17711); (17727,14274);
(14759,14275); (17731,17729); (17732,14273); (17734,14138)].
Definition g22 : list (positive * positive) := [
(17737,17691); (17738,17688); (15740,14139); (17491,14281); (17529,14280); (17747,17745); (17749,14278); (17511,14281); (17483,14280); (17755,17753); (17757,14279); (17759,17751);
(17761,14276); (15631,14277); (17765,17763); (17767,14274); (14669,14275); (17771,17769); (17772,14273); (17774,14138); (17777,17743); (15734,14139); (17571,14281); (17609,14280);
(17785,17783); (17787,14278); (17591,14281); (17563,14280); (17793,17791); (17795,14279); (17797,17789); (17799,14276); (15573,14277); (17803,17801); (17805,14274); (14707,14275);
(17809,17807); (17810,14273); (17812,14138); (17815,17781); (17816,17778); (17818,17740); (17820,17638); (15770,14139); (17301,14278); (17185,14279); (17829,17827); (17831,14276);
(15515,14277); (17835,17833); (17837,14274); (14595,14275); (17841,17839); (17842,14273); (17844,14138); (17847,17825); (15764,14139); (17453,14278); (17365,14279); (17855,17853);
(17857,14276); (15449,14277); (17861,17859); (17863,14274); (14537,14275); (17867,17865); (17868,14273); (17870,14138); (17873,17851); (17874,17848); (15800,14139); (17535,14278);
(17495,14279); (17883,17881); (17885,14276); (15393,14277); (17889,17887); (17891,14274); (14455,14275); (17895,17893); (17896,14273); (17898,14138); (17901,17879); (15794,14139);
(17615,14278); (17575,14279); (17909,17907); (17911,14276); (15335,14277); (17915,17913); (17917,14274); (14489,14275); (17921,17919); (17922,14273); (17924,14138); (17927,17905);
(17928,17902); (17930,17876); (15832,14139); (17669,14278); (17647,14279); (17939,17937); (17941,14276); (15277,14277); (17945,17943); (17947,14274); (14357,14275); (17951,17949);
(17952,14273); (17954,14138); (17957,17935); (15826,14139); (17719,14278); (17697,14279); (17965,17963); (17967,14276); (15215,14277); (17971,17969); (17973,14274); (14387,14275);
(17977,17975); (17978,14273); (17980,14138); (17983,17961); (17984,17958); (15866,14139); (15627,14278); (17749,14279); (17993,17991); (17995,14276); (15115,14277); (17999,17997);
(18001,14274); (15118,14276); (18005,14275); (18007,18003); (18008,14273); (18010,14138); (18013,17989); (15860,14139); (15569,14278); (17787,14279); (18021,18019); (18023,14276);
(15157,14277); (18027,18025); (18029,14274); (15160,14276); (18033,14275); (18035,18031); (18036,14273); (18038,14138); (18041,18017); (18042,18014); (18044,17986); (18046,17932);
(18048,17822); (15902,14139); (17305,14276); (15041,14277); (18057,18055); (18058,14274); (18060,14273); (18062,14138); (18065,18053); (15896,14139); (17457,14276); (14975,14277);
(18073,18071); (18074,14274); (18076,14273); (18078,14138); (18081,18069); (18082,18066); (15936,14139); (17539,14276); (14887,14277); (18091,18089); (18092,14274); (18094,14273);
(18096,14138); (18099,18087); (15930,14139); (17619,14276); (14923,14277); (18107,18105); (18108,14274); (18110,14273); (18112,14138); (18115,18103); (18116,18100); (18118,18084);
(15958,14139); (17673,14276); (14815,14277); (18127,18125); (18128,14274); (18130,14273); (18132,14138); (18135,18123); (15952,14139); (17723,14276); (14757,14277); (18143,18141);
(18144,14274); (18146,14273); (18148,14138); (18151,18139); (18152,18136); (18154,18120); (18156,18050); (18158,17124); (18161,14138); (18163,15967); (18164,15644); (15644,15586);
(18168,18164); (18170,15529); (18173,18166); (18175,15586); (18177,15532); (134,133); (18180,137); (131,67); (130,66); (18187,18185); (15964,14139); (18158,17124);
(18192,14138); (18195,18191); (15644,15587); (18198,18197); (18201,18188); (18203,18182); (134,132); (18206,137); (15530,136); (18210,15586); (18213,18209); (18201,18189);
(18217,18208); (18219,18215); (18221,18183); (18223,18205); (18225,15533); (18227,18179); (18228,15529); (18230,15463); (18232,15408); (18234,15294); (18236,15056); (18238,14606);
(18240,14396); (14334,14139); (18004,14274); (18246,14273); (18248,14138); (18251,18245); (18253,18242); (18228,15528); (18229,15529); (18259,18257); (18261,18255); (18230,15462);
(18231,15463); (18267,18265); (18269,18254); (18271,18263); (18269,18255); (18232,15406); (18233,15407); (18279,18277); (18280,18254); (18283,18275); (18284,18272); (18280,18255);
(18232,15406); (18291,15348); (18290,15349); (18295,18293); (18296,18254); (18299,18289); (18296,18255); (18234,15290); (18235,15291); (18307,18305); (18308,18254); (18311,18303);
(18312,18300); (18314,18286); (18308,18255); (18234,15290); (18321,15228); (18320,15229); (18325,18323); (18326,18254); (18329,18319); (18326,18255); (18234,15292); (18335,15130);
(18334,15131); (18339,18337); (18340,18254); (18343,18333); (18344,18330); (18340,18255); (18334,15131); (18351,15172); (18350,15173); (18355,18353); (18356,18254); (18359,18349);
(18356,18255); (18236,15050); (18237,15051); (18367,18365); (18368,18254); (18371,18363); (18372,18360); (18374,18346); (18376,18316); (18368,18255); (18236,15050); (18383,14984);
(18382,14985); (18387,18385); (18388,18254); (18391,18381); (18388,18255); (18236,15052); (18397,14896); (18396,14897); (18401,18399); (18402,18254); (18405,18395); (18406,18392);
(18402,18255); (18396,14897); (18413,14932); (18412,14933); (18417,18415); (18418,18254); (18421,18411); (18418,18255); (18236,15054); (18426,14824); (18427,14825); (18431,18429);
(18432,18254); (18435,18425); (18436,18422); (18438,18408); (18432,18255); (18426,14824); (18445,14766); (18444,14767); (18449,18447); (18450,18254); (18453,18443); (18450,18255);
(18426,14826); (18459,14676); (18458,14677); (18463,18461); (18464,18254); (18467,18457); (18468,18454); (18464,18255); (18458,14677); (18475,14714); (18474,14715); (18479,18477);
(18480,18254); (18483,18473); (18480,18255); (18238,14602); (18239,14603); (18491,18489); (18492,18254); (18495,18487); (18496,18484); (18498,18470); (18500,18440); (18502,18378);
(18492,18255); (18238,14602); (18509,14544); (18508,14545); (18513,18511); (18514,18254); (18517,18507); (18514,18255); (18238,14604); (18523,14462); (18522,14463); (18527,18525);
(18528,18254); (18531,18521); (18532,18518); (18528,18255)].
Definition g23 : list (positive * positive) := [
(18522,14463); (18539,14496); (18538,14497); (18543,18541); (18544,18254); (18547,18537); (18544,18255); (18240,14364); (18241,14365); (18555,18553); (18557,18254); (18559,18551);
(18560,18548); (18562,18534); (18557,18255); (18240,14365); (18569,14394); (18568,14395); (18573,18571); (18574,18254); (18577,18567); (18574,18255); (18252,18243); (18253,18242);
(18585,18583); (18586,18254); (18589,18581); (18590,18578); (18253,18242); (18595,18586); (18597,18592); (18598,18564); (18600,18504); (18602,14138); (18255,13997); (14015,14002);
(14043,14030); (18610,18608); (14103,14090); (14073,14059); (18616,18614); (18618,18612); (18620,14121); (18623,13996); (18622,13997); (18627,18625); (18628,18254); (18631,18607);
(18632,14139); (18255,14014); (14014,14002); (14015,14003); (18641,18639); (18642,18254); (18645,18637); (18646,14139); (18595,14002); (18594,14003); (18653,18651); (18654,14139);
(18255,14138); (18659,18657); (18661,18649); (18255,14031); (18608,14043); (18667,14030); (18666,14031); (18671,18669); (18672,18254); (18675,18665); (18676,14139); (18255,14043);
(18609,14042); (18608,14043); (18685,18683); (18686,18254); (18689,18681); (18691,14139); (18693,18679); (18694,18662); (18255,14073); (18612,14059); (18701,14072); (18700,14073);
(18705,18703); (18706,18254); (18709,18699); (18711,14139); (18255,14059); (18613,14058); (18612,14059); (18719,18717); (18720,18254); (18723,18715); (18725,14139); (18727,18713);
(18255,14091); (18616,18612); (18732,14103); (18735,14090); (18734,14091); (18739,18737); (18740,18254); (18743,18731); (18744,14139); (18255,14102); (18733,14103); (18732,14102);
(18753,18751); (18754,18254); (18757,18749); (18758,14139); (18761,18747); (18762,18728); (18764,18696); (18255,14120); (18621,14121); (18620,14120); (18773,18771); (18774,18254);
(18777,18769); (18778,14139); (18781,18635); (18782,18766); (18785,18635); (18787,18604); (18789,333); (18760,18746); (18726,18712); (18794,18792); (18692,18678); (18660,18648);
(18800,18798); (18802,18796); (18804,18782); (18780,18635); (18809,18807); (18811,14139); (18812,310); (18814,323); (18817,18272); (18188,18182); (18208,18188); (18823,18183);
(18825,18821); (135,132); (18828,137); (18831,18827); (18832,18816); (18835,18819); (18836,18790); (18838,323); (18840,310); (18817,18284); (18832,18816); (18847,18845);
(18848,18790); (18850,323); (18852,310); (18817,18300); (18832,18816); (18859,18857); (18860,18790); (18862,323); (18864,310); (18817,18312); (18832,18816); (18871,18869);
(18872,18790); (18874,323); (18876,310); (18817,18330); (18832,18816); (18883,18881); (18884,18790); (18886,323); (18888,310); (18817,18344); (18832,18816); (18895,18893);
(18896,18790); (18898,323); (18900,310); (18817,18360); (18832,18816); (18907,18905); (18908,18790); (18910,323); (18912,310); (18817,18372); (18832,18816); (18919,18917);
(18920,18790); (18922,323); (18924,310); (18817,18392); (18832,18816); (18931,18929); (18932,18790); (18934,323); (18936,310); (18817,18406); (18832,18816); (18943,18941);
(18944,18790); (18946,323); (18948,310); (18817,18422); (18832,18816); (18955,18953); (18956,18790); (18958,323); (18960,310); (18817,18436); (18832,18816); (18967,18965);
(18968,18790); (18970,323); (18972,310); (18817,18454); (18832,18816); (18979,18977); (18980,18790); (18982,323); (18984,310); (18817,18468); (18832,18816); (18991,18989);
(18992,18790); (18994,323); (18996,310); (18817,18484); (18832,18816); (19003,19001); (19004,18790); (19006,323); (19008,310); (18817,18496); (18832,18816); (19015,19013);
(19016,18790); (19018,323); (19020,310); (18817,18518); (18832,18816); (19027,19025); (19028,18790); (19030,323); (19032,310); (18817,18532); (18832,18816); (19039,19037);
(19040,18790); (19042,323); (19044,310); (18817,18548); (18832,18816); (19051,19049); (19052,18790); (19054,323); (19056,310); (18817,18560); (18832,18816); (19063,19061);
(19064,18790); (19066,323); (19068,310); (18817,18578); (18832,18816); (19075,19073); (19076,18790); (19078,323); (19080,310); (18817,18590); (18832,18816); (19087,19085);
(19088,18790); (19090,323); (19092,310); (18817,18597); (18832,18816); (19099,19097); (19100,18790); (19102,323); (19105,310); (18255,14138); (19108,18790); (19110,310);
(19112,323); (18810,18661); (19117,18635); (19118,19115); (19121,18817); (18189,18182); (18208,18188); (19126,18183); (19129,19125); (19130,18831); (19133,18816); (19135,19123);
(19136,18790); (19139,323); (19140,310); (18810,18649); (19145,18635); (19146,19115); (19149,18817); (19151,18790); (19153,323); (19154,310); (18810,18693); (19159,18635);
(19160,19115); (19163,18817); (19165,18790); (19167,323); (19168,310); (18810,18679); (19173,18635); (19174,19115); (19177,18817); (19179,18790); (19181,323); (19182,310);
(18810,18727); (19187,18635); (19188,19115); (19191,18817); (19193,18790); (19195,323); (19196,310); (18810,18713); (19201,18635); (19202,19115); (19205,18817); (19207,18790);
(19209,323); (19210,310); (18810,18761); (19215,18635); (19216,19115); (19219,18817); (19221,18790); (19223,323); (19224,310); (18810,18747); (19229,18635); (19230,19115);
(19233,18817); (19235,18790); (19237,323); (19238,310); (18188,310); (323,310); (19244,18790); (18813,18200); (19249,19246); (19115,18789); (19253,19250); (19254,310);
(19256,323); (18815,323)].
Definition fmul : list (positive * positive) * list positive :=
  (g0 ++ g1 ++ g2 ++ g3 ++ g4 ++ g5 ++ g6 ++ g7 ++ g8 ++ g9 ++ g10 ++ g11 ++
   g12 ++ g13 ++ g14 ++ g15 ++ g16 ++ g17 ++ g18 ++ g19 ++ g20 ++ g21 ++ g22 ++ g23,
   [18842; 18854; 18866; 18878; 18890; 18902; 18914; 18926; 18938; 18950; 18962; 18974; 18986; 18998; 19010; 19022; 19034; 19046; 19058; 19070; 19082; 19094; 19107; 19143; 19157; 19171; 19185; 19199; 19213; 19227; 19241; 19242; 19250; 19258; 18816; 19261; 307]).
