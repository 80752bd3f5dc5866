(** back-end/Exu/include/fadd.h, fadd_io_generator: the 12298 gates [n68 ..] in the order of
    the file and the 37 outputs, as literals (see NetModel.v). *)
From Coq Require Import List PArith. Import ListNotations.
Local Open Scope positive_scope.
Definition g0 : list (positive * positive) := [
(7,5); (11,9); (140,138); (15,13); (19,17); (146,144); (148,142); (23,21); (27,25); (154,152); (31,29); (35,33);
(160,158); (162,156); (164,150); (39,37); (43,41); (170,168); (47,45); (174,49); (176,172); (178,166); (52,50); (56,54);
(184,182); (60,58); (64,62); (190,188); (192,186); (194,181); (71,69); (75,73); (200,198); (79,77); (83,81); (206,204);
(208,202); (87,85); (91,89); (214,212); (95,93); (99,97); (220,218); (222,216); (224,210); (103,101); (107,105); (230,228);
(111,109); (234,113); (236,232); (238,226); (116,114); (120,118); (244,242); (124,122); (128,126); (250,248); (252,246); (254,241);
(257,197); (53,51); (57,55); (262,260); (61,59); (65,63); (268,266); (270,264); (272,180); (274,68); (117,115); (121,119);
(280,278); (125,123); (129,127); (286,284); (288,282); (290,240); (292,4); (131,67); (130,66); (299,297); (272,181); (303,64);
(290,241); (307,128); (309,304); (309,305); (308,304); (315,313); (303,62); (307,126); (321,318); (322,317); (325,311); (321,319);
(320,318); (331,329); (333,317); (303,60); (307,124); (339,336); (338,337); (339,336); (345,343); (303,58); (307,122); (351,348);
(352,346); (355,341); (357,334); (359,326); (351,349); (350,348); (365,363); (367,346); (368,334); (303,56); (307,120); (375,372);
(374,373); (375,372); (381,379); (307,118); (303,54); (386,385); (388,382); (391,377); (303,54); (395,385); (394,384); (399,397);
(401,382); (303,52); (307,116); (407,404); (406,405); (407,404); (413,411); (303,51); (307,115); (419,416); (421,414); (423,409);
(425,402); (427,392); (429,370); (431,360); (419,417); (418,416); (437,435); (439,414); (440,402); (442,370); (445,432); (320,319);
(338,337); (350,349); (452,346); (455,451); (374,373); (307,118); (460,395); (462,382); (465,459); (406,405); (418,417); (471,414);
(473,469); (475,402); (477,466); (479,368); (481,456); (483,333); (485,449); (487,317); (486,316); (491,489); (492,446); (429,368);
(497,356); (499,333); (501,323); (503,317); (502,316); (507,505); (508,447); (511,495); (483,333); (482,332); (517,515); (518,446);
(499,333); (498,332); (525,523); (526,447); (529,521); (530,512); (479,367); (478,366); (537,535); (538,446); (428,367); (429,366);
(545,543); (547,447); (549,541); (479,367); (553,453); (555,346); (554,347); (559,557); (560,446); (429,367); (565,353); (567,346);
(566,347); (571,569); (572,447); (575,563); (576,551); (578,532); (475,401); (583,463); (585,383); (584,382); (589,587); (590,446);
(425,401); (595,389); (597,383); (596,382); (601,599); (602,447); (605,593); (475,400); (474,401); (611,609); (613,446); (425,400);
(424,401); (619,617); (621,447); (623,615); (624,606); (471,415); (470,414); (631,629); (632,446); (421,415); (420,414); (639,637);
(640,447); (643,635); (419,417); (418,416); (649,647); (650,644); (652,626); (654,580); (530,512); (577,532); (661,658); (625,606);
(665,655); (667,580); (669,662); (670,657); (576,550); (674,532); (650,644); (679,626); (681,606); (683,580); (685,677); (576,530);
(606,551); (645,624); (692,690); (695,690); (697,688); (698,512); (651,645); (702,626); (705,606); (707,580); (709,677); (691,688);
(712,512); (624,607); (625,607); (718,679); (721,717); (723,580); (725,677); (644,625); (607,551); (730,729); (733,551); (735,688);
(736,512); (718,702); (741,717); (743,580); (745,677); (716,578); (749,675); (751,532); (716,679); (754,580); (757,677); (730,692);
(761,551); (763,688); (764,512); (716,702); (768,580); (771,677); (625,606); (679,664); (777,774); (779,676); (607,550); (606,550);
(784,729); (787,783); (789,688); (790,512); (702,664); (795,774); (797,676); (775,674); (800,532); (683,676); (784,692); (807,783);
(809,688); (810,512); (707,676); (782,688); (816,512); (723,676); (782,729); (822,688); (824,512); (270,264); (768,676); (830,829);
(782,692); (834,688); (836,512); (838,832); (754,676); (842,840); (716,674); (846,532); (848,844); (743,676); (852,850); (854,826);
(856,820); (858,818); (860,814); (862,812); (864,804); (866,802); (868,798); (870,792); (872,780); (874,676); (876,773); (878,766);
(880,759); (882,752); (884,747); (886,738); (888,727); (890,714); (892,711); (894,700); (896,687); (898,672); (900,432); (829,433);
(905,903); (288,282); (908,432); (445,433); (913,908); (909,830); (916,838); (918,842); (920,848); (922,852); (924,826); (926,820);
(928,818); (930,814); (932,812); (934,804)].
Definition g1 : list (positive * positive) := [
(936,802); (938,798); (940,792); (942,780); (944,676); (946,773); (948,766); (950,759); (952,752); (954,747); (956,738); (958,727);
(960,714); (962,711); (964,700); (966,687); (968,672); (971,912); (973,915); (975,433); (977,911); (978,907); (978,906); (979,907);
(985,983); (897,686); (895,701); (893,710); (891,715); (889,726); (887,739); (885,746); (883,753); (881,758); (879,767); (877,772);
(875,677); (873,781); (871,793); (869,799); (867,803); (865,805); (863,813); (861,815); (859,819); (857,821); (855,827); (853,851);
(849,845); (843,841); (839,833); (831,828); (302,48); (275,48); (1044,303); (1047,1043); (1048,830); (1051,1041); (1053,838); (1055,1039);
(1057,842); (1059,1037); (1061,848); (1063,1035); (1065,852); (1067,1033); (1069,826); (1071,1031); (1073,820); (1075,1029); (1077,818); (1079,1027);
(1081,814); (1083,1025); (1085,812); (1087,1023); (1089,804); (1091,1021); (1093,802); (1095,1019); (1097,798); (1099,1017); (1101,792); (1103,1015);
(1105,780); (1107,1013); (1109,676); (1111,1011); (1113,773); (1115,1009); (1117,766); (1119,1007); (1121,759); (1123,1005); (1125,752); (1127,1003);
(1129,747); (1131,1001); (1133,738); (1135,999); (1137,727); (1139,997); (1141,714); (1143,995); (1145,711); (1147,993); (1149,700); (1151,991);
(1153,687); (1155,989); (1156,672); (1159,432); (1048,433); (1163,1161); (306,112); (293,112); (1168,307); (1171,1167); (1172,432); (1172,913);
(967,686); (965,701); (963,710); (961,715); (959,726); (957,739); (955,746); (953,753); (951,758); (949,767); (947,772); (945,677);
(943,781); (941,793); (939,799); (937,803); (935,805); (933,813); (931,815); (929,819); (927,821); (925,827); (923,853); (921,849);
(919,843); (917,839); (908,831); (1172,830); (1233,1231); (1235,838); (1237,1229); (1239,842); (1241,1227); (1243,848); (1245,1225); (1247,852);
(1249,1223); (1251,826); (1253,1221); (1255,820); (1257,1219); (1259,818); (1261,1217); (1263,814); (1265,1215); (1267,812); (1269,1213); (1271,804);
(1273,1211); (1275,802); (1277,1209); (1279,798); (1281,1207); (1283,792); (1285,1205); (1287,780); (1289,1203); (1291,676); (1293,1201); (1295,773);
(1297,1199); (1299,766); (1301,1197); (1303,759); (1305,1195); (1307,752); (1309,1193); (1311,747); (1313,1191); (1315,738); (1317,1189); (1319,727);
(1321,1187); (1323,714); (1325,1185); (1327,711); (1329,1183); (1331,700); (1333,1181); (1335,687); (1337,1179); (1338,672); (1341,912); (1343,1177);
(1345,433); (1347,1175); (1348,1164); (1153,686); (1149,701); (1145,710); (1141,715); (1137,726); (1133,739); (1129,746); (1125,753); (1121,758);
(1117,767); (1113,772); (1109,677); (1105,781); (1101,793); (1097,799); (1093,803); (1089,805); (1085,813); (1081,815); (1077,819); (1073,821);
(1069,827); (1065,853); (1061,849); (1057,843); (1053,839); (1048,831); (302,46); (275,46); (1408,303); (1411,1407); (1412,830); (1415,1405);
(1417,838); (1419,1403); (1421,842); (1423,1401); (1425,848); (1427,1399); (1429,852); (1431,1397); (1433,826); (1435,1395); (1437,820); (1439,1393);
(1441,818); (1443,1391); (1445,814); (1447,1389); (1449,812); (1451,1387); (1453,804); (1455,1385); (1457,802); (1459,1383); (1461,798); (1463,1381);
(1465,792); (1467,1379); (1469,780); (1471,1377); (1473,676); (1475,1375); (1477,773); (1479,1373); (1481,766); (1483,1371); (1485,759); (1487,1369);
(1489,752); (1491,1367); (1493,747); (1495,1365); (1497,738); (1499,1363); (1501,727); (1503,1361); (1505,714); (1507,1359); (1509,711); (1511,1357);
(1513,700); (1515,1355); (1517,687); (1519,1353); (1520,672); (1522,432); (1413,433); (1527,1525); (306,110); (293,110); (1532,307); (1535,1531);
(1536,432); (1536,913); (1335,686); (1331,701); (1327,710); (1323,715); (1319,726); (1315,739); (1311,746); (1307,753); (1303,758); (1299,767);
(1295,772); (1291,677); (1287,781); (1283,793); (1279,799); (1275,803); (1271,805); (1267,813); (1263,815); (1259,819); (1255,821); (1251,827);
(1247,853); (1243,849); (1239,843); (1235,839); (1172,831); (1536,830); (1597,1595); (1599,838); (1601,1593); (1603,842); (1605,1591); (1607,848);
(1609,1589); (1611,852); (1613,1587); (1615,826); (1617,1585); (1619,820); (1621,1583); (1623,818); (1625,1581); (1627,814); (1629,1579); (1631,812);
(1633,1577); (1635,804); (1637,1575); (1639,802); (1641,1573); (1643,798); (1645,1571); (1647,792); (1649,1569); (1651,780); (1653,1567); (1655,676);
(1657,1565); (1659,773); (1661,1563); (1663,766); (1665,1561); (1667,759); (1669,1559); (1671,752); (1673,1557); (1675,747); (1677,1555); (1679,738);
(1681,1553); (1683,727); (1685,1551); (1687,714); (1689,1549); (1691,711); (1693,1547); (1695,700); (1697,1545); (1699,687); (1701,1543); (1702,672);
(1705,912); (1707,1541); (1709,433); (1711,1539); (1712,1529); (1348,1165); (1349,1164); (1719,1717); (1721,1714); (1723,1351); (1712,1528); (1713,1529);
(1729,1727); (1731,1721); (1517,686); (1513,701)].
Definition g2 : list (positive * positive) := [
(1509,710); (1505,715); (1501,726); (1497,739); (1493,746); (1489,753); (1485,758); (1481,767); (1477,772); (1473,677); (1469,781); (1465,793);
(1461,799); (1457,803); (1453,805); (1449,813); (1445,815); (1441,819); (1437,821); (1433,827); (1429,853); (1425,849); (1421,843); (1417,839);
(1412,831); (302,44); (275,44); (1790,303); (1793,1789); (1794,830); (1797,1787); (1799,838); (1801,1785); (1803,842); (1805,1783); (1807,848);
(1809,1781); (1811,852); (1813,1779); (1815,826); (1817,1777); (1819,820); (1821,1775); (1823,818); (1825,1773); (1827,814); (1829,1771); (1831,812);
(1833,1769); (1835,804); (1837,1767); (1839,802); (1841,1765); (1843,798); (1845,1763); (1847,792); (1849,1761); (1851,780); (1853,1759); (1855,676);
(1857,1757); (1859,773); (1861,1755); (1863,766); (1865,1753); (1867,759); (1869,1751); (1871,752); (1873,1749); (1875,747); (1877,1747); (1879,738);
(1881,1745); (1883,727); (1885,1743); (1887,714); (1889,1741); (1891,711); (1893,1739); (1895,700); (1897,1737); (1899,687); (1901,1735); (1902,672);
(1905,432); (1794,433); (1909,1907); (306,108); (293,108); (1914,307); (1917,1913); (1918,432); (1918,913); (1699,686); (1695,701); (1691,710);
(1687,715); (1683,726); (1679,739); (1675,746); (1671,753); (1667,758); (1663,767); (1659,772); (1655,677); (1651,781); (1647,793); (1643,799);
(1639,803); (1635,805); (1631,813); (1627,815); (1623,819); (1619,821); (1615,827); (1611,853); (1607,849); (1603,843); (1599,839); (1536,831);
(1918,830); (1979,1977); (1981,838); (1983,1975); (1985,842); (1987,1973); (1989,848); (1991,1971); (1993,852); (1995,1969); (1997,826); (1999,1967);
(2001,820); (2003,1965); (2005,818); (2007,1963); (2009,814); (2011,1961); (2013,812); (2015,1959); (2017,804); (2019,1957); (2021,802); (2023,1955);
(2025,798); (2027,1953); (2029,792); (2031,1951); (2033,780); (2035,1949); (2037,676); (2039,1947); (2041,773); (2043,1945); (2045,766); (2047,1943);
(2049,759); (2051,1941); (2053,752); (2055,1939); (2057,747); (2059,1937); (2061,738); (2063,1935); (2065,727); (2067,1933); (2069,714); (2071,1931);
(2073,711); (2075,1929); (2077,700); (2079,1927); (2081,687); (2083,1925); (2084,672); (2087,912); (2089,1923); (2091,433); (2093,1921); (2094,1910);
(1899,686); (1895,701); (1891,710); (1887,715); (1883,726); (1879,739); (1875,746); (1871,753); (1867,758); (1863,767); (1859,772); (1855,677);
(1851,781); (1847,793); (1843,799); (1839,803); (1835,805); (1831,813); (1827,815); (1823,819); (1819,821); (1815,827); (1811,853); (1807,849);
(1803,843); (1799,839); (1794,831); (302,42); (275,42); (2154,303); (2157,2153); (2158,830); (2161,2151); (2163,838); (2165,2149); (2167,842);
(2169,2147); (2171,848); (2173,2145); (2175,852); (2177,2143); (2179,826); (2181,2141); (2183,820); (2185,2139); (2187,818); (2189,2137); (2191,814);
(2193,2135); (2195,812); (2197,2133); (2199,804); (2201,2131); (2203,802); (2205,2129); (2207,798); (2209,2127); (2211,792); (2213,2125); (2215,780);
(2217,2123); (2219,676); (2221,2121); (2223,773); (2225,2119); (2227,766); (2229,2117); (2231,759); (2233,2115); (2235,752); (2237,2113); (2239,747);
(2241,2111); (2243,738); (2245,2109); (2247,727); (2249,2107); (2251,714); (2253,2105); (2255,711); (2257,2103); (2259,700); (2261,2101); (2263,687);
(2265,2099); (2266,672); (2268,432); (2159,433); (2273,2271); (306,106); (293,106); (2278,307); (2281,2277); (2282,432); (2282,913); (2081,686);
(2077,701); (2073,710); (2069,715); (2065,726); (2061,739); (2057,746); (2053,753); (2049,758); (2045,767); (2041,772); (2037,677); (2033,781);
(2029,793); (2025,799); (2021,803); (2017,805); (2013,813); (2009,815); (2005,819); (2001,821); (1997,827); (1993,853); (1989,849); (1985,843);
(1981,839); (1918,831); (2282,830); (2343,2341); (2345,838); (2347,2339); (2349,842); (2351,2337); (2353,848); (2355,2335); (2357,852); (2359,2333);
(2361,826); (2363,2331); (2365,820); (2367,2329); (2369,818); (2371,2327); (2373,814); (2375,2325); (2377,812); (2379,2323); (2381,804); (2383,2321);
(2385,802); (2387,2319); (2389,798); (2391,2317); (2393,792); (2395,2315); (2397,780); (2399,2313); (2401,676); (2403,2311); (2405,773); (2407,2309);
(2409,766); (2411,2307); (2413,759); (2415,2305); (2417,752); (2419,2303); (2421,747); (2423,2301); (2425,738); (2427,2299); (2429,727); (2431,2297);
(2433,714); (2435,2295); (2437,711); (2439,2293); (2441,700); (2443,2291); (2445,687); (2447,2289); (2448,672); (2451,912); (2453,2287); (2455,433);
(2457,2285); (2458,2275); (2094,1911); (2095,1910); (2465,2463); (2467,2460); (2469,2097); (2458,2274); (2459,2275); (2475,2473); (2477,2467); (2263,686);
(2259,701); (2255,710); (2251,715); (2247,726); (2243,739); (2239,746); (2235,753); (2231,758); (2227,767); (2223,772); (2219,677); (2215,781);
(2211,793); (2207,799); (2203,803); (2199,805); (2195,813); (2191,815); (2187,819); (2183,821); (2179,827); (2175,853); (2171,849); (2167,843);
(2163,839); (2158,831); (302,40); (275,40)].
Definition g3 : list (positive * positive) := [
(2536,303); (2539,2535); (2540,830); (2543,2533); (2545,838); (2547,2531); (2549,842); (2551,2529); (2553,848); (2555,2527); (2557,852); (2559,2525);
(2561,826); (2563,2523); (2565,820); (2567,2521); (2569,818); (2571,2519); (2573,814); (2575,2517); (2577,812); (2579,2515); (2581,804); (2583,2513);
(2585,802); (2587,2511); (2589,798); (2591,2509); (2593,792); (2595,2507); (2597,780); (2599,2505); (2601,676); (2603,2503); (2605,773); (2607,2501);
(2609,766); (2611,2499); (2613,759); (2615,2497); (2617,752); (2619,2495); (2621,747); (2623,2493); (2625,738); (2627,2491); (2629,727); (2631,2489);
(2633,714); (2635,2487); (2637,711); (2639,2485); (2641,700); (2643,2483); (2645,687); (2647,2481); (2648,672); (2651,432); (2540,433); (2655,2653);
(306,104); (293,104); (2660,307); (2663,2659); (2664,432); (2664,913); (2445,686); (2441,701); (2437,710); (2433,715); (2429,726); (2425,739);
(2421,746); (2417,753); (2413,758); (2409,767); (2405,772); (2401,677); (2397,781); (2393,793); (2389,799); (2385,803); (2381,805); (2377,813);
(2373,815); (2369,819); (2365,821); (2361,827); (2357,853); (2353,849); (2349,843); (2345,839); (2282,831); (2664,830); (2725,2723); (2727,838);
(2729,2721); (2731,842); (2733,2719); (2735,848); (2737,2717); (2739,852); (2741,2715); (2743,826); (2745,2713); (2747,820); (2749,2711); (2751,818);
(2753,2709); (2755,814); (2757,2707); (2759,812); (2761,2705); (2763,804); (2765,2703); (2767,802); (2769,2701); (2771,798); (2773,2699); (2775,792);
(2777,2697); (2779,780); (2781,2695); (2783,676); (2785,2693); (2787,773); (2789,2691); (2791,766); (2793,2689); (2795,759); (2797,2687); (2799,752);
(2801,2685); (2803,747); (2805,2683); (2807,738); (2809,2681); (2811,727); (2813,2679); (2815,714); (2817,2677); (2819,711); (2821,2675); (2823,700);
(2825,2673); (2827,687); (2829,2671); (2830,672); (2833,912); (2835,2669); (2837,433); (2839,2667); (2840,2656); (2645,686); (2641,701); (2637,710);
(2633,715); (2629,726); (2625,739); (2621,746); (2617,753); (2613,758); (2609,767); (2605,772); (2601,677); (2597,781); (2593,793); (2589,799);
(2585,803); (2581,805); (2577,813); (2573,815); (2569,819); (2565,821); (2561,827); (2557,853); (2553,849); (2549,843); (2545,839); (2540,831);
(302,38); (275,38); (2900,303); (2903,2899); (2904,830); (2907,2897); (2909,838); (2911,2895); (2913,842); (2915,2893); (2917,848); (2919,2891);
(2921,852); (2923,2889); (2925,826); (2927,2887); (2929,820); (2931,2885); (2933,818); (2935,2883); (2937,814); (2939,2881); (2941,812); (2943,2879);
(2945,804); (2947,2877); (2949,802); (2951,2875); (2953,798); (2955,2873); (2957,792); (2959,2871); (2961,780); (2963,2869); (2965,676); (2967,2867);
(2969,773); (2971,2865); (2973,766); (2975,2863); (2977,759); (2979,2861); (2981,752); (2983,2859); (2985,747); (2987,2857); (2989,738); (2991,2855);
(2993,727); (2995,2853); (2997,714); (2999,2851); (3001,711); (3003,2849); (3005,700); (3007,2847); (3009,687); (3011,2845); (3012,672); (3014,432);
(2905,433); (3019,3017); (306,102); (293,102); (3024,307); (3027,3023); (3028,432); (3028,913); (2827,686); (2823,701); (2819,710); (2815,715);
(2811,726); (2807,739); (2803,746); (2799,753); (2795,758); (2791,767); (2787,772); (2783,677); (2779,781); (2775,793); (2771,799); (2767,803);
(2763,805); (2759,813); (2755,815); (2751,819); (2747,821); (2743,827); (2739,853); (2735,849); (2731,843); (2727,839); (2664,831); (3028,830);
(3089,3087); (3091,838); (3093,3085); (3095,842); (3097,3083); (3099,848); (3101,3081); (3103,852); (3105,3079); (3107,826); (3109,3077); (3111,820);
(3113,3075); (3115,818); (3117,3073); (3119,814); (3121,3071); (3123,812); (3125,3069); (3127,804); (3129,3067); (3131,802); (3133,3065); (3135,798);
(3137,3063); (3139,792); (3141,3061); (3143,780); (3145,3059); (3147,676); (3149,3057); (3151,773); (3153,3055); (3155,766); (3157,3053); (3159,759);
(3161,3051); (3163,752); (3165,3049); (3167,747); (3169,3047); (3171,738); (3173,3045); (3175,727); (3177,3043); (3179,714); (3181,3041); (3183,711);
(3185,3039); (3187,700); (3189,3037); (3191,687); (3193,3035); (3194,672); (3197,912); (3199,3033); (3201,433); (3203,3031); (3204,3021); (2840,2657);
(2841,2656); (3211,3209); (3213,3206); (3215,2843); (3217,2478); (3219,2470); (3204,3020); (3205,3021); (3225,3223); (3227,3213); (3228,2478); (3009,686);
(3005,701); (3001,710); (2997,715); (2993,726); (2989,739); (2985,746); (2981,753); (2977,758); (2973,767); (2969,772); (2965,677); (2961,781);
(2957,793); (2953,799); (2949,803); (2945,805); (2941,813); (2937,815); (2933,819); (2929,821); (2925,827); (2921,853); (2917,849); (2913,843);
(2909,839); (2904,831); (302,36); (275,36); (3288,303); (3291,3287); (3292,830); (3295,3285); (3297,838); (3299,3283); (3301,842); (3303,3281);
(3305,848); (3307,3279); (3309,852); (3311,3277); (3313,826); (3315,3275); (3317,820); (3319,3273); (3321,818); (3323,3271); (3325,814); (3327,3269);
(3329,812); (3331,3267); (3333,804); (3335,3265)].
Definition g4 : list (positive * positive) := [
(3337,802); (3339,3263); (3341,798); (3343,3261); (3345,792); (3347,3259); (3349,780); (3351,3257); (3353,676); (3355,3255); (3357,773); (3359,3253);
(3361,766); (3363,3251); (3365,759); (3367,3249); (3369,752); (3371,3247); (3373,747); (3375,3245); (3377,738); (3379,3243); (3381,727); (3383,3241);
(3385,714); (3387,3239); (3389,711); (3391,3237); (3393,700); (3395,3235); (3397,687); (3399,3233); (3400,672); (3403,432); (3292,433); (3407,3405);
(306,100); (293,100); (3412,307); (3415,3411); (3416,432); (3416,913); (3191,686); (3187,701); (3183,710); (3179,715); (3175,726); (3171,739);
(3167,746); (3163,753); (3159,758); (3155,767); (3151,772); (3147,677); (3143,781); (3139,793); (3135,799); (3131,803); (3127,805); (3123,813);
(3119,815); (3115,819); (3111,821); (3107,827); (3103,853); (3099,849); (3095,843); (3091,839); (3028,831); (3416,830); (3477,3475); (3479,838);
(3481,3473); (3483,842); (3485,3471); (3487,848); (3489,3469); (3491,852); (3493,3467); (3495,826); (3497,3465); (3499,820); (3501,3463); (3503,818);
(3505,3461); (3507,814); (3509,3459); (3511,812); (3513,3457); (3515,804); (3517,3455); (3519,802); (3521,3453); (3523,798); (3525,3451); (3527,792);
(3529,3449); (3531,780); (3533,3447); (3535,676); (3537,3445); (3539,773); (3541,3443); (3543,766); (3545,3441); (3547,759); (3549,3439); (3551,752);
(3553,3437); (3555,747); (3557,3435); (3559,738); (3561,3433); (3563,727); (3565,3431); (3567,714); (3569,3429); (3571,711); (3573,3427); (3575,700);
(3577,3425); (3579,687); (3581,3423); (3582,672); (3585,912); (3587,3421); (3589,433); (3591,3419); (3592,3408); (3397,686); (3393,701); (3389,710);
(3385,715); (3381,726); (3377,739); (3373,746); (3369,753); (3365,758); (3361,767); (3357,772); (3353,677); (3349,781); (3345,793); (3341,799);
(3337,803); (3333,805); (3329,813); (3325,815); (3321,819); (3317,821); (3313,827); (3309,853); (3305,849); (3301,843); (3297,839); (3292,831);
(302,34); (275,34); (3652,303); (3655,3651); (3656,830); (3659,3649); (3661,838); (3663,3647); (3665,842); (3667,3645); (3669,848); (3671,3643);
(3673,852); (3675,3641); (3677,826); (3679,3639); (3681,820); (3683,3637); (3685,818); (3687,3635); (3689,814); (3691,3633); (3693,812); (3695,3631);
(3697,804); (3699,3629); (3701,802); (3703,3627); (3705,798); (3707,3625); (3709,792); (3711,3623); (3713,780); (3715,3621); (3717,676); (3719,3619);
(3721,773); (3723,3617); (3725,766); (3727,3615); (3729,759); (3731,3613); (3733,752); (3735,3611); (3737,747); (3739,3609); (3741,738); (3743,3607);
(3745,727); (3747,3605); (3749,714); (3751,3603); (3753,711); (3755,3601); (3757,700); (3759,3599); (3761,687); (3763,3597); (3764,672); (3766,432);
(3657,433); (3771,3769); (306,98); (293,98); (3776,307); (3779,3775); (3780,432); (3780,913); (3579,686); (3575,701); (3571,710); (3567,715);
(3563,726); (3559,739); (3555,746); (3551,753); (3547,758); (3543,767); (3539,772); (3535,677); (3531,781); (3527,793); (3523,799); (3519,803);
(3515,805); (3511,813); (3507,815); (3503,819); (3499,821); (3495,827); (3491,853); (3487,849); (3483,843); (3479,839); (3416,831); (3780,830);
(3841,3839); (3843,838); (3845,3837); (3847,842); (3849,3835); (3851,848); (3853,3833); (3855,852); (3857,3831); (3859,826); (3861,3829); (3863,820);
(3865,3827); (3867,818); (3869,3825); (3871,814); (3873,3823); (3875,812); (3877,3821); (3879,804); (3881,3819); (3883,802); (3885,3817); (3887,798);
(3889,3815); (3891,792); (3893,3813); (3895,780); (3897,3811); (3899,676); (3901,3809); (3903,773); (3905,3807); (3907,766); (3909,3805); (3911,759);
(3913,3803); (3915,752); (3917,3801); (3919,747); (3921,3799); (3923,738); (3925,3797); (3927,727); (3929,3795); (3931,714); (3933,3793); (3935,711);
(3937,3791); (3939,700); (3941,3789); (3943,687); (3945,3787); (3946,672); (3949,912); (3951,3785); (3953,433); (3955,3783); (3956,3773); (3592,3409);
(3593,3408); (3963,3961); (3965,3958); (3967,3595); (3956,3772); (3957,3773); (3973,3971); (3975,3965); (3761,686); (3757,701); (3753,710); (3749,715);
(3745,726); (3741,739); (3737,746); (3733,753); (3729,758); (3725,767); (3721,772); (3717,677); (3713,781); (3709,793); (3705,799); (3701,803);
(3697,805); (3693,813); (3689,815); (3685,819); (3681,821); (3677,827); (3673,853); (3669,849); (3665,843); (3661,839); (3656,831); (302,32);
(275,32); (4034,303); (4037,4033); (4038,830); (4041,4031); (4043,838); (4045,4029); (4047,842); (4049,4027); (4051,848); (4053,4025); (4055,852);
(4057,4023); (4059,826); (4061,4021); (4063,820); (4065,4019); (4067,818); (4069,4017); (4071,814); (4073,4015); (4075,812); (4077,4013); (4079,804);
(4081,4011); (4083,802); (4085,4009); (4087,798); (4089,4007); (4091,792); (4093,4005); (4095,780); (4097,4003); (4099,676); (4101,4001); (4103,773);
(4105,3999); (4107,766); (4109,3997); (4111,759); (4113,3995); (4115,752); (4117,3993); (4119,747); (4121,3991); (4123,738); (4125,3989); (4127,727);
(4129,3987); (4131,714); (4133,3985); (4135,711)].
Definition g5 : list (positive * positive) := [
(4137,3983); (4139,700); (4141,3981); (4143,687); (4145,3979); (4146,672); (4149,432); (4038,433); (4153,4151); (306,96); (293,96); (4158,307);
(4161,4157); (4162,432); (4162,913); (3943,686); (3939,701); (3935,710); (3931,715); (3927,726); (3923,739); (3919,746); (3915,753); (3911,758);
(3907,767); (3903,772); (3899,677); (3895,781); (3891,793); (3887,799); (3883,803); (3879,805); (3875,813); (3871,815); (3867,819); (3863,821);
(3859,827); (3855,853); (3851,849); (3847,843); (3843,839); (3780,831); (4162,830); (4223,4221); (4225,838); (4227,4219); (4229,842); (4231,4217);
(4233,848); (4235,4215); (4237,852); (4239,4213); (4241,826); (4243,4211); (4245,820); (4247,4209); (4249,818); (4251,4207); (4253,814); (4255,4205);
(4257,812); (4259,4203); (4261,804); (4263,4201); (4265,802); (4267,4199); (4269,798); (4271,4197); (4273,792); (4275,4195); (4277,780); (4279,4193);
(4281,676); (4283,4191); (4285,773); (4287,4189); (4289,766); (4291,4187); (4293,759); (4295,4185); (4297,752); (4299,4183); (4301,747); (4303,4181);
(4305,738); (4307,4179); (4309,727); (4311,4177); (4313,714); (4315,4175); (4317,711); (4319,4173); (4321,700); (4323,4171); (4325,687); (4327,4169);
(4328,672); (4331,912); (4333,4167); (4335,433); (4337,4165); (4338,4154); (4143,686); (4139,701); (4135,710); (4131,715); (4127,726); (4123,739);
(4119,746); (4115,753); (4111,758); (4107,767); (4103,772); (4099,677); (4095,781); (4091,793); (4087,799); (4083,803); (4079,805); (4075,813);
(4071,815); (4067,819); (4063,821); (4059,827); (4055,853); (4051,849); (4047,843); (4043,839); (4038,831); (302,30); (275,30); (4398,303);
(4401,4397); (4402,830); (4405,4395); (4407,838); (4409,4393); (4411,842); (4413,4391); (4415,848); (4417,4389); (4419,852); (4421,4387); (4423,826);
(4425,4385); (4427,820); (4429,4383); (4431,818); (4433,4381); (4435,814); (4437,4379); (4439,812); (4441,4377); (4443,804); (4445,4375); (4447,802);
(4449,4373); (4451,798); (4453,4371); (4455,792); (4457,4369); (4459,780); (4461,4367); (4463,676); (4465,4365); (4467,773); (4469,4363); (4471,766);
(4473,4361); (4475,759); (4477,4359); (4479,752); (4481,4357); (4483,747); (4485,4355); (4487,738); (4489,4353); (4491,727); (4493,4351); (4495,714);
(4497,4349); (4499,711); (4501,4347); (4503,700); (4505,4345); (4507,687); (4509,4343); (4510,672); (4512,432); (4403,433); (4517,4515); (306,94);
(293,94); (4522,307); (4525,4521); (4526,432); (4526,913); (4325,686); (4321,701); (4317,710); (4313,715); (4309,726); (4305,739); (4301,746);
(4297,753); (4293,758); (4289,767); (4285,772); (4281,677); (4277,781); (4273,793); (4269,799); (4265,803); (4261,805); (4257,813); (4253,815);
(4249,819); (4245,821); (4241,827); (4237,853); (4233,849); (4229,843); (4225,839); (4162,831); (4526,830); (4587,4585); (4589,838); (4591,4583);
(4593,842); (4595,4581); (4597,848); (4599,4579); (4601,852); (4603,4577); (4605,826); (4607,4575); (4609,820); (4611,4573); (4613,818); (4615,4571);
(4617,814); (4619,4569); (4621,812); (4623,4567); (4625,804); (4627,4565); (4629,802); (4631,4563); (4633,798); (4635,4561); (4637,792); (4639,4559);
(4641,780); (4643,4557); (4645,676); (4647,4555); (4649,773); (4651,4553); (4653,766); (4655,4551); (4657,759); (4659,4549); (4661,752); (4663,4547);
(4665,747); (4667,4545); (4669,738); (4671,4543); (4673,727); (4675,4541); (4677,714); (4679,4539); (4681,711); (4683,4537); (4685,700); (4687,4535);
(4689,687); (4691,4533); (4692,672); (4695,912); (4697,4531); (4699,433); (4701,4529); (4702,4519); (4338,4155); (4339,4154); (4709,4707); (4711,4704);
(4713,4341); (4715,3976); (4717,3968); (4719,3230); (4721,3220); (4702,4518); (4703,4519); (4727,4725); (4729,4711); (4730,3976); (4732,3230); (4507,686);
(4503,701); (4499,710); (4495,715); (4491,726); (4487,739); (4483,746); (4479,753); (4475,758); (4471,767); (4467,772); (4463,677); (4459,781);
(4455,793); (4451,799); (4447,803); (4443,805); (4439,813); (4435,815); (4431,819); (4427,821); (4423,827); (4419,853); (4415,849); (4411,843);
(4407,839); (4402,831); (302,28); (275,28); (4792,303); (4795,4791); (4796,830); (4799,4789); (4801,838); (4803,4787); (4805,842); (4807,4785);
(4809,848); (4811,4783); (4813,852); (4815,4781); (4817,826); (4819,4779); (4821,820); (4823,4777); (4825,818); (4827,4775); (4829,814); (4831,4773);
(4833,812); (4835,4771); (4837,804); (4839,4769); (4841,802); (4843,4767); (4845,798); (4847,4765); (4849,792); (4851,4763); (4853,780); (4855,4761);
(4857,676); (4859,4759); (4861,773); (4863,4757); (4865,766); (4867,4755); (4869,759); (4871,4753); (4873,752); (4875,4751); (4877,747); (4879,4749);
(4881,738); (4883,4747); (4885,727); (4887,4745); (4889,714); (4891,4743); (4893,711); (4895,4741); (4897,700); (4899,4739); (4901,687); (4903,4737);
(4904,672); (4907,432); (4796,433); (4911,4909); (306,92); (293,92); (4916,307); (4919,4915); (4920,432); (4920,913); (4689,686); (4685,701);
(4681,710); (4677,715); (4673,726); (4669,739)].
Definition g6 : list (positive * positive) := [
(4665,746); (4661,753); (4657,758); (4653,767); (4649,772); (4645,677); (4641,781); (4637,793); (4633,799); (4629,803); (4625,805); (4621,813);
(4617,815); (4613,819); (4609,821); (4605,827); (4601,853); (4597,849); (4593,843); (4589,839); (4526,831); (4920,830); (4981,4979); (4983,838);
(4985,4977); (4987,842); (4989,4975); (4991,848); (4993,4973); (4995,852); (4997,4971); (4999,826); (5001,4969); (5003,820); (5005,4967); (5007,818);
(5009,4965); (5011,814); (5013,4963); (5015,812); (5017,4961); (5019,804); (5021,4959); (5023,802); (5025,4957); (5027,798); (5029,4955); (5031,792);
(5033,4953); (5035,780); (5037,4951); (5039,676); (5041,4949); (5043,773); (5045,4947); (5047,766); (5049,4945); (5051,759); (5053,4943); (5055,752);
(5057,4941); (5059,747); (5061,4939); (5063,738); (5065,4937); (5067,727); (5069,4935); (5071,714); (5073,4933); (5075,711); (5077,4931); (5079,700);
(5081,4929); (5083,687); (5085,4927); (5086,672); (5089,912); (5091,4925); (5093,433); (5095,4923); (5096,4912); (4901,686); (4897,701); (4893,710);
(4889,715); (4885,726); (4881,739); (4877,746); (4873,753); (4869,758); (4865,767); (4861,772); (4857,677); (4853,781); (4849,793); (4845,799);
(4841,803); (4837,805); (4833,813); (4829,815); (4825,819); (4821,821); (4817,827); (4813,853); (4809,849); (4805,843); (4801,839); (4796,831);
(302,26); (275,26); (5156,303); (5159,5155); (5160,830); (5163,5153); (5165,838); (5167,5151); (5169,842); (5171,5149); (5173,848); (5175,5147);
(5177,852); (5179,5145); (5181,826); (5183,5143); (5185,820); (5187,5141); (5189,818); (5191,5139); (5193,814); (5195,5137); (5197,812); (5199,5135);
(5201,804); (5203,5133); (5205,802); (5207,5131); (5209,798); (5211,5129); (5213,792); (5215,5127); (5217,780); (5219,5125); (5221,676); (5223,5123);
(5225,773); (5227,5121); (5229,766); (5231,5119); (5233,759); (5235,5117); (5237,752); (5239,5115); (5241,747); (5243,5113); (5245,738); (5247,5111);
(5249,727); (5251,5109); (5253,714); (5255,5107); (5257,711); (5259,5105); (5261,700); (5263,5103); (5265,687); (5267,5101); (5268,672); (5270,432);
(5161,433); (5275,5273); (306,90); (293,90); (5280,307); (5283,5279); (5284,432); (5284,913); (5083,686); (5079,701); (5075,710); (5071,715);
(5067,726); (5063,739); (5059,746); (5055,753); (5051,758); (5047,767); (5043,772); (5039,677); (5035,781); (5031,793); (5027,799); (5023,803);
(5019,805); (5015,813); (5011,815); (5007,819); (5003,821); (4999,827); (4995,853); (4991,849); (4987,843); (4983,839); (4920,831); (5284,830);
(5345,5343); (5347,838); (5349,5341); (5351,842); (5353,5339); (5355,848); (5357,5337); (5359,852); (5361,5335); (5363,826); (5365,5333); (5367,820);
(5369,5331); (5371,818); (5373,5329); (5375,814); (5377,5327); (5379,812); (5381,5325); (5383,804); (5385,5323); (5387,802); (5389,5321); (5391,798);
(5393,5319); (5395,792); (5397,5317); (5399,780); (5401,5315); (5403,676); (5405,5313); (5407,773); (5409,5311); (5411,766); (5413,5309); (5415,759);
(5417,5307); (5419,752); (5421,5305); (5423,747); (5425,5303); (5427,738); (5429,5301); (5431,727); (5433,5299); (5435,714); (5437,5297); (5439,711);
(5441,5295); (5443,700); (5445,5293); (5447,687); (5449,5291); (5450,672); (5453,912); (5455,5289); (5457,433); (5459,5287); (5460,5277); (5096,4913);
(5097,4912); (5467,5465); (5469,5462); (5471,5099); (5460,5276); (5461,5277); (5477,5475); (5479,5469); (5265,686); (5261,701); (5257,710); (5253,715);
(5249,726); (5245,739); (5241,746); (5237,753); (5233,758); (5229,767); (5225,772); (5221,677); (5217,781); (5213,793); (5209,799); (5205,803);
(5201,805); (5197,813); (5193,815); (5189,819); (5185,821); (5181,827); (5177,853); (5173,849); (5169,843); (5165,839); (5160,831); (302,24);
(275,24); (5538,303); (5541,5537); (5542,830); (5545,5535); (5547,838); (5549,5533); (5551,842); (5553,5531); (5555,848); (5557,5529); (5559,852);
(5561,5527); (5563,826); (5565,5525); (5567,820); (5569,5523); (5571,818); (5573,5521); (5575,814); (5577,5519); (5579,812); (5581,5517); (5583,804);
(5585,5515); (5587,802); (5589,5513); (5591,798); (5593,5511); (5595,792); (5597,5509); (5599,780); (5601,5507); (5603,676); (5605,5505); (5607,773);
(5609,5503); (5611,766); (5613,5501); (5615,759); (5617,5499); (5619,752); (5621,5497); (5623,747); (5625,5495); (5627,738); (5629,5493); (5631,727);
(5633,5491); (5635,714); (5637,5489); (5639,711); (5641,5487); (5643,700); (5645,5485); (5647,687); (5649,5483); (5650,672); (5653,432); (5542,433);
(5657,5655); (306,88); (293,88); (5662,307); (5665,5661); (5666,432); (5666,913); (5447,686); (5443,701); (5439,710); (5435,715); (5431,726);
(5427,739); (5423,746); (5419,753); (5415,758); (5411,767); (5407,772); (5403,677); (5399,781); (5395,793); (5391,799); (5387,803); (5383,805);
(5379,813); (5375,815); (5371,819); (5367,821); (5363,827); (5359,853); (5355,849); (5351,843); (5347,839); (5284,831); (5666,830); (5727,5725);
(5729,838); (5731,5723); (5733,842); (5735,5721)].
Definition g7 : list (positive * positive) := [
(5737,848); (5739,5719); (5741,852); (5743,5717); (5745,826); (5747,5715); (5749,820); (5751,5713); (5753,818); (5755,5711); (5757,814); (5759,5709);
(5761,812); (5763,5707); (5765,804); (5767,5705); (5769,802); (5771,5703); (5773,798); (5775,5701); (5777,792); (5779,5699); (5781,780); (5783,5697);
(5785,676); (5787,5695); (5789,773); (5791,5693); (5793,766); (5795,5691); (5797,759); (5799,5689); (5801,752); (5803,5687); (5805,747); (5807,5685);
(5809,738); (5811,5683); (5813,727); (5815,5681); (5817,714); (5819,5679); (5821,711); (5823,5677); (5825,700); (5827,5675); (5829,687); (5831,5673);
(5832,672); (5835,912); (5837,5671); (5839,433); (5841,5669); (5842,5658); (5647,686); (5643,701); (5639,710); (5635,715); (5631,726); (5627,739);
(5623,746); (5619,753); (5615,758); (5611,767); (5607,772); (5603,677); (5599,781); (5595,793); (5591,799); (5587,803); (5583,805); (5579,813);
(5575,815); (5571,819); (5567,821); (5563,827); (5559,853); (5555,849); (5551,843); (5547,839); (5542,831); (302,22); (275,22); (5902,303);
(5905,5901); (5906,830); (5909,5899); (5911,838); (5913,5897); (5915,842); (5917,5895); (5919,848); (5921,5893); (5923,852); (5925,5891); (5927,826);
(5929,5889); (5931,820); (5933,5887); (5935,818); (5937,5885); (5939,814); (5941,5883); (5943,812); (5945,5881); (5947,804); (5949,5879); (5951,802);
(5953,5877); (5955,798); (5957,5875); (5959,792); (5961,5873); (5963,780); (5965,5871); (5967,676); (5969,5869); (5971,773); (5973,5867); (5975,766);
(5977,5865); (5979,759); (5981,5863); (5983,752); (5985,5861); (5987,747); (5989,5859); (5991,738); (5993,5857); (5995,727); (5997,5855); (5999,714);
(6001,5853); (6003,711); (6005,5851); (6007,700); (6009,5849); (6011,687); (6013,5847); (6014,672); (6016,432); (5907,433); (6021,6019); (306,86);
(293,86); (6026,307); (6029,6025); (6030,432); (6030,913); (5829,686); (5825,701); (5821,710); (5817,715); (5813,726); (5809,739); (5805,746);
(5801,753); (5797,758); (5793,767); (5789,772); (5785,677); (5781,781); (5777,793); (5773,799); (5769,803); (5765,805); (5761,813); (5757,815);
(5753,819); (5749,821); (5745,827); (5741,853); (5737,849); (5733,843); (5729,839); (5666,831); (6030,830); (6091,6089); (6093,838); (6095,6087);
(6097,842); (6099,6085); (6101,848); (6103,6083); (6105,852); (6107,6081); (6109,826); (6111,6079); (6113,820); (6115,6077); (6117,818); (6119,6075);
(6121,814); (6123,6073); (6125,812); (6127,6071); (6129,804); (6131,6069); (6133,802); (6135,6067); (6137,798); (6139,6065); (6141,792); (6143,6063);
(6145,780); (6147,6061); (6149,676); (6151,6059); (6153,773); (6155,6057); (6157,766); (6159,6055); (6161,759); (6163,6053); (6165,752); (6167,6051);
(6169,747); (6171,6049); (6173,738); (6175,6047); (6177,727); (6179,6045); (6181,714); (6183,6043); (6185,711); (6187,6041); (6189,700); (6191,6039);
(6193,687); (6195,6037); (6196,672); (6199,912); (6201,6035); (6203,433); (6205,6033); (6206,6023); (5842,5659); (5843,5658); (6213,6211); (6215,6208);
(6217,5845); (6219,5480); (6221,5472); (6206,6022); (6207,6023); (6227,6225); (6229,6215); (6230,5480); (6011,686); (6007,701); (6003,710); (5999,715);
(5995,726); (5991,739); (5987,746); (5983,753); (5979,758); (5975,767); (5971,772); (5967,677); (5963,781); (5959,793); (5955,799); (5951,803);
(5947,805); (5943,813); (5939,815); (5935,819); (5931,821); (5927,827); (5923,853); (5919,849); (5915,843); (5911,839); (5906,831); (302,20);
(275,20); (6290,303); (6293,6289); (6294,830); (6297,6287); (6299,838); (6301,6285); (6303,842); (6305,6283); (6307,848); (6309,6281); (6311,852);
(6313,6279); (6315,826); (6317,6277); (6319,820); (6321,6275); (6323,818); (6325,6273); (6327,814); (6329,6271); (6331,812); (6333,6269); (6335,804);
(6337,6267); (6339,802); (6341,6265); (6343,798); (6345,6263); (6347,792); (6349,6261); (6351,780); (6353,6259); (6355,676); (6357,6257); (6359,773);
(6361,6255); (6363,766); (6365,6253); (6367,759); (6369,6251); (6371,752); (6373,6249); (6375,747); (6377,6247); (6379,738); (6381,6245); (6383,727);
(6385,6243); (6387,714); (6389,6241); (6391,711); (6393,6239); (6395,700); (6397,6237); (6399,687); (6401,6235); (6402,672); (6405,432); (6294,433);
(6409,6407); (306,84); (293,84); (6414,307); (6417,6413); (6418,432); (6418,913); (6193,686); (6189,701); (6185,710); (6181,715); (6177,726);
(6173,739); (6169,746); (6165,753); (6161,758); (6157,767); (6153,772); (6149,677); (6145,781); (6141,793); (6137,799); (6133,803); (6129,805);
(6125,813); (6121,815); (6117,819); (6113,821); (6109,827); (6105,853); (6101,849); (6097,843); (6093,839); (6030,831); (6418,830); (6479,6477);
(6481,838); (6483,6475); (6485,842); (6487,6473); (6489,848); (6491,6471); (6493,852); (6495,6469); (6497,826); (6499,6467); (6501,820); (6503,6465);
(6505,818); (6507,6463); (6509,814); (6511,6461); (6513,812); (6515,6459); (6517,804); (6519,6457); (6521,802); (6523,6455); (6525,798); (6527,6453);
(6529,792); (6531,6451); (6533,780); (6535,6449)].
Definition g8 : list (positive * positive) := [
(6537,676); (6539,6447); (6541,773); (6543,6445); (6545,766); (6547,6443); (6549,759); (6551,6441); (6553,752); (6555,6439); (6557,747); (6559,6437);
(6561,738); (6563,6435); (6565,727); (6567,6433); (6569,714); (6571,6431); (6573,711); (6575,6429); (6577,700); (6579,6427); (6581,687); (6583,6425);
(6584,672); (6587,912); (6589,6423); (6591,433); (6593,6421); (6594,6410); (6399,686); (6395,701); (6391,710); (6387,715); (6383,726); (6379,739);
(6375,746); (6371,753); (6367,758); (6363,767); (6359,772); (6355,677); (6351,781); (6347,793); (6343,799); (6339,803); (6335,805); (6331,813);
(6327,815); (6323,819); (6319,821); (6315,827); (6311,853); (6307,849); (6303,843); (6299,839); (6294,831); (302,18); (275,18); (6654,303);
(6657,6653); (6658,830); (6661,6651); (6663,838); (6665,6649); (6667,842); (6669,6647); (6671,848); (6673,6645); (6675,852); (6677,6643); (6679,826);
(6681,6641); (6683,820); (6685,6639); (6687,818); (6689,6637); (6691,814); (6693,6635); (6695,812); (6697,6633); (6699,804); (6701,6631); (6703,802);
(6705,6629); (6707,798); (6709,6627); (6711,792); (6713,6625); (6715,780); (6717,6623); (6719,676); (6721,6621); (6723,773); (6725,6619); (6727,766);
(6729,6617); (6731,759); (6733,6615); (6735,752); (6737,6613); (6739,747); (6741,6611); (6743,738); (6745,6609); (6747,727); (6749,6607); (6751,714);
(6753,6605); (6755,711); (6757,6603); (6759,700); (6761,6601); (6763,687); (6765,6599); (6766,672); (6768,432); (6659,433); (6773,6771); (306,82);
(293,82); (6778,307); (6781,6777); (6782,432); (6782,913); (6581,686); (6577,701); (6573,710); (6569,715); (6565,726); (6561,739); (6557,746);
(6553,753); (6549,758); (6545,767); (6541,772); (6537,677); (6533,781); (6529,793); (6525,799); (6521,803); (6517,805); (6513,813); (6509,815);
(6505,819); (6501,821); (6497,827); (6493,853); (6489,849); (6485,843); (6481,839); (6418,831); (6782,830); (6843,6841); (6845,838); (6847,6839);
(6849,842); (6851,6837); (6853,848); (6855,6835); (6857,852); (6859,6833); (6861,826); (6863,6831); (6865,820); (6867,6829); (6869,818); (6871,6827);
(6873,814); (6875,6825); (6877,812); (6879,6823); (6881,804); (6883,6821); (6885,802); (6887,6819); (6889,798); (6891,6817); (6893,792); (6895,6815);
(6897,780); (6899,6813); (6901,676); (6903,6811); (6905,773); (6907,6809); (6909,766); (6911,6807); (6913,759); (6915,6805); (6917,752); (6919,6803);
(6921,747); (6923,6801); (6925,738); (6927,6799); (6929,727); (6931,6797); (6933,714); (6935,6795); (6937,711); (6939,6793); (6941,700); (6943,6791);
(6945,687); (6947,6789); (6948,672); (6951,912); (6953,6787); (6955,433); (6957,6785); (6958,6775); (6594,6411); (6595,6410); (6965,6963); (6967,6960);
(6969,6597); (6958,6774); (6959,6775); (6975,6973); (6977,6967); (6763,686); (6759,701); (6755,710); (6751,715); (6747,726); (6743,739); (6739,746);
(6735,753); (6731,758); (6727,767); (6723,772); (6719,677); (6715,781); (6711,793); (6707,799); (6703,803); (6699,805); (6695,813); (6691,815);
(6687,819); (6683,821); (6679,827); (6675,853); (6671,849); (6667,843); (6663,839); (6658,831); (302,16); (275,16); (7036,303); (7039,7035);
(7040,830); (7043,7033); (7045,838); (7047,7031); (7049,842); (7051,7029); (7053,848); (7055,7027); (7057,852); (7059,7025); (7061,826); (7063,7023);
(7065,820); (7067,7021); (7069,818); (7071,7019); (7073,814); (7075,7017); (7077,812); (7079,7015); (7081,804); (7083,7013); (7085,802); (7087,7011);
(7089,798); (7091,7009); (7093,792); (7095,7007); (7097,780); (7099,7005); (7101,676); (7103,7003); (7105,773); (7107,7001); (7109,766); (7111,6999);
(7113,759); (7115,6997); (7117,752); (7119,6995); (7121,747); (7123,6993); (7125,738); (7127,6991); (7129,727); (7131,6989); (7133,714); (7135,6987);
(7137,711); (7139,6985); (7141,700); (7143,6983); (7145,687); (7147,6981); (7148,672); (7151,432); (7040,433); (7155,7153); (306,80); (293,80);
(7160,307); (7163,7159); (7164,432); (7164,913); (6945,686); (6941,701); (6937,710); (6933,715); (6929,726); (6925,739); (6921,746); (6917,753);
(6913,758); (6909,767); (6905,772); (6901,677); (6897,781); (6893,793); (6889,799); (6885,803); (6881,805); (6877,813); (6873,815); (6869,819);
(6865,821); (6861,827); (6857,853); (6853,849); (6849,843); (6845,839); (6782,831); (7164,830); (7225,7223); (7227,838); (7229,7221); (7231,842);
(7233,7219); (7235,848); (7237,7217); (7239,852); (7241,7215); (7243,826); (7245,7213); (7247,820); (7249,7211); (7251,818); (7253,7209); (7255,814);
(7257,7207); (7259,812); (7261,7205); (7263,804); (7265,7203); (7267,802); (7269,7201); (7271,798); (7273,7199); (7275,792); (7277,7197); (7279,780);
(7281,7195); (7283,676); (7285,7193); (7287,773); (7289,7191); (7291,766); (7293,7189); (7295,759); (7297,7187); (7299,752); (7301,7185); (7303,747);
(7305,7183); (7307,738); (7309,7181); (7311,727); (7313,7179); (7315,714); (7317,7177); (7319,711); (7321,7175); (7323,700); (7325,7173); (7327,687);
(7329,7171); (7330,672); (7333,912); (7335,7169)].
Definition g9 : list (positive * positive) := [
(7337,433); (7339,7167); (7340,7156); (7145,686); (7141,701); (7137,710); (7133,715); (7129,726); (7125,739); (7121,746); (7117,753); (7113,758);
(7109,767); (7105,772); (7101,677); (7097,781); (7093,793); (7089,799); (7085,803); (7081,805); (7077,813); (7073,815); (7069,819); (7065,821);
(7061,827); (7057,853); (7053,849); (7049,843); (7045,839); (7040,831); (302,14); (275,14); (7400,303); (7403,7399); (7404,830); (7407,7397);
(7409,838); (7411,7395); (7413,842); (7415,7393); (7417,848); (7419,7391); (7421,852); (7423,7389); (7425,826); (7427,7387); (7429,820); (7431,7385);
(7433,818); (7435,7383); (7437,814); (7439,7381); (7441,812); (7443,7379); (7445,804); (7447,7377); (7449,802); (7451,7375); (7453,798); (7455,7373);
(7457,792); (7459,7371); (7461,780); (7463,7369); (7465,676); (7467,7367); (7469,773); (7471,7365); (7473,766); (7475,7363); (7477,759); (7479,7361);
(7481,752); (7483,7359); (7485,747); (7487,7357); (7489,738); (7491,7355); (7493,727); (7495,7353); (7497,714); (7499,7351); (7501,711); (7503,7349);
(7505,700); (7507,7347); (7509,687); (7511,7345); (7512,672); (7514,432); (7405,433); (7519,7517); (306,78); (293,78); (7524,307); (7527,7523);
(7528,432); (7528,913); (7327,686); (7323,701); (7319,710); (7315,715); (7311,726); (7307,739); (7303,746); (7299,753); (7295,758); (7291,767);
(7287,772); (7283,677); (7279,781); (7275,793); (7271,799); (7267,803); (7263,805); (7259,813); (7255,815); (7251,819); (7247,821); (7243,827);
(7239,853); (7235,849); (7231,843); (7227,839); (7164,831); (7528,830); (7589,7587); (7591,838); (7593,7585); (7595,842); (7597,7583); (7599,848);
(7601,7581); (7603,852); (7605,7579); (7607,826); (7609,7577); (7611,820); (7613,7575); (7615,818); (7617,7573); (7619,814); (7621,7571); (7623,812);
(7625,7569); (7627,804); (7629,7567); (7631,802); (7633,7565); (7635,798); (7637,7563); (7639,792); (7641,7561); (7643,780); (7645,7559); (7647,676);
(7649,7557); (7651,773); (7653,7555); (7655,766); (7657,7553); (7659,759); (7661,7551); (7663,752); (7665,7549); (7667,747); (7669,7547); (7671,738);
(7673,7545); (7675,727); (7677,7543); (7679,714); (7681,7541); (7683,711); (7685,7539); (7687,700); (7689,7537); (7691,687); (7693,7535); (7694,672);
(7697,912); (7699,7533); (7701,433); (7703,7531); (7704,7521); (7340,7157); (7341,7156); (7711,7709); (7713,7706); (7715,7343); (7717,6978); (7719,6970);
(7721,6232); (7723,6222); (7704,7520); (7705,7521); (7729,7727); (7731,7713); (7732,6978); (7734,6232); (7509,686); (7505,701); (7501,710); (7497,715);
(7493,726); (7489,739); (7485,746); (7481,753); (7477,758); (7473,767); (7469,772); (7465,677); (7461,781); (7457,793); (7453,799); (7449,803);
(7445,805); (7441,813); (7437,815); (7433,819); (7429,821); (7425,827); (7421,853); (7417,849); (7413,843); (7409,839); (7404,831); (302,12);
(275,12); (7794,303); (7797,7793); (7798,830); (7801,7791); (7803,838); (7805,7789); (7807,842); (7809,7787); (7811,848); (7813,7785); (7815,852);
(7817,7783); (7819,826); (7821,7781); (7823,820); (7825,7779); (7827,818); (7829,7777); (7831,814); (7833,7775); (7835,812); (7837,7773); (7839,804);
(7841,7771); (7843,802); (7845,7769); (7847,798); (7849,7767); (7851,792); (7853,7765); (7855,780); (7857,7763); (7859,676); (7861,7761); (7863,773);
(7865,7759); (7867,766); (7869,7757); (7871,759); (7873,7755); (7875,752); (7877,7753); (7879,747); (7881,7751); (7883,738); (7885,7749); (7887,727);
(7889,7747); (7891,714); (7893,7745); (7895,711); (7897,7743); (7899,700); (7901,7741); (7903,687); (7905,7739); (7906,672); (7909,432); (7798,433);
(7913,7911); (306,76); (293,76); (7918,307); (7921,7917); (7922,432); (7922,913); (7691,686); (7687,701); (7683,710); (7679,715); (7675,726);
(7671,739); (7667,746); (7663,753); (7659,758); (7655,767); (7651,772); (7647,677); (7643,781); (7639,793); (7635,799); (7631,803); (7627,805);
(7623,813); (7619,815); (7615,819); (7611,821); (7607,827); (7603,853); (7599,849); (7594,843); (7590,839); (7529,831); (7923,830); (7983,7981);
(7985,838); (7987,7979); (7989,842); (7991,7977); (7992,848); (7995,7975); (7997,852); (7999,7973); (8001,826); (8003,7971); (8005,820); (8007,7969);
(8009,818); (8011,7967); (8013,814); (8015,7965); (8017,812); (8019,7963); (8021,804); (8023,7961); (8025,802); (8027,7959); (8029,798); (8031,7957);
(8033,792); (8035,7955); (8037,780); (8039,7953); (8041,676); (8043,7951); (8045,773); (8047,7949); (8049,766); (8051,7947); (8053,759); (8055,7945);
(8057,752); (8059,7943); (8061,747); (8063,7941); (8065,738); (8067,7939); (8069,727); (8071,7937); (8073,714); (8075,7935); (8077,711); (8079,7933);
(8081,700); (8083,7931); (8085,687); (8087,7929); (8088,672); (8091,912); (8093,7927); (8095,433); (8097,7925); (8098,7914); (7903,686); (7899,701);
(7895,710); (7891,715); (7887,726); (7883,739); (7879,746); (7875,753); (7871,758); (7867,767); (7863,772); (7859,677); (7855,781); (7851,793);
(7847,799); (7843,803); (7839,805); (7835,813)].
Definition g10 : list (positive * positive) := [
(7831,815); (7827,819); (7823,821); (7819,827); (7815,853); (7811,849); (7806,843); (7802,839); (7799,831); (302,10); (275,10); (8158,303);
(8161,8157); (8163,830); (8165,8155); (8167,838); (8169,8153); (8171,842); (8173,8151); (8174,848); (8177,8149); (8179,852); (8181,8147); (8183,826);
(8185,8145); (8187,820); (8189,8143); (8191,818); (8193,8141); (8195,814); (8197,8139); (8199,812); (8201,8137); (8203,804); (8205,8135); (8207,802);
(8209,8133); (8211,798); (8213,8131); (8215,792); (8217,8129); (8219,780); (8221,8127); (8223,676); (8225,8125); (8227,773); (8229,8123); (8231,766);
(8233,8121); (8235,759); (8237,8119); (8239,752); (8241,8117); (8243,747); (8245,8115); (8247,738); (8249,8113); (8251,727); (8253,8111); (8255,714);
(8257,8109); (8259,711); (8261,8107); (8263,700); (8265,8105); (8267,687); (8269,8103); (8270,672); (8272,432); (8163,433); (8277,8275); (306,74);
(293,74); (8282,307); (8285,8281); (8286,432); (8286,913); (8085,686); (8081,701); (8077,710); (8073,715); (8069,726); (8065,739); (8061,746);
(8057,753); (8053,758); (8049,767); (8045,772); (8041,677); (8037,781); (8033,793); (8029,799); (8025,803); (8021,805); (8017,813); (8013,815);
(8009,819); (8005,821); (8001,827); (7997,853); (7993,849); (7989,843); (7985,839); (7923,831); (8287,830); (8347,8345); (8349,838); (8351,8343);
(8353,842); (8355,8341); (8357,848); (8359,8339); (8360,852); (8363,8337); (8365,826); (8367,8335); (8369,820); (8371,8333); (8373,818); (8375,8331);
(8377,814); (8379,8329); (8381,812); (8383,8327); (8385,804); (8387,8325); (8389,802); (8391,8323); (8393,798); (8395,8321); (8397,792); (8399,8319);
(8401,780); (8403,8317); (8405,676); (8407,8315); (8409,773); (8411,8313); (8413,766); (8415,8311); (8417,759); (8419,8309); (8421,752); (8423,8307);
(8425,747); (8427,8305); (8429,738); (8431,8303); (8433,727); (8435,8301); (8437,714); (8439,8299); (8441,711); (8443,8297); (8445,700); (8447,8295);
(8449,687); (8451,8293); (8452,672); (8455,912); (8457,8291); (8459,433); (8461,8289); (8462,8279); (8098,7915); (8099,7914); (8469,8467); (8471,8464);
(8473,8101); (8462,8278); (8463,8279); (8479,8477); (8481,8471); (8267,686); (8263,701); (8259,710); (8255,715); (8251,726); (8247,739); (8243,746);
(8239,753); (8235,758); (8231,767); (8227,772); (8223,677); (8219,781); (8215,793); (8211,799); (8207,803); (8203,805); (8199,813); (8195,815);
(8191,819); (8187,821); (8183,827); (8179,853); (8175,849); (8171,843); (8167,839); (8163,831); (302,8); (275,8); (8540,303); (8543,8539);
(8545,830); (8547,8537); (8549,838); (8551,8535); (8553,842); (8555,8533); (8557,848); (8559,8531); (8560,852); (8563,8529); (8565,826); (8567,8527);
(8569,820); (8571,8525); (8573,818); (8575,8523); (8577,814); (8579,8521); (8581,812); (8583,8519); (8585,804); (8587,8517); (8589,802); (8591,8515);
(8593,798); (8595,8513); (8597,792); (8599,8511); (8601,780); (8603,8509); (8605,676); (8607,8507); (8609,773); (8611,8505); (8613,766); (8615,8503);
(8617,759); (8619,8501); (8621,752); (8623,8499); (8625,747); (8627,8497); (8629,738); (8631,8495); (8633,727); (8635,8493); (8637,714); (8639,8491);
(8641,711); (8643,8489); (8645,700); (8647,8487); (8649,687); (8651,8485); (8652,672); (8655,432); (8544,433); (8659,8657); (306,72); (293,72);
(8664,307); (8667,8663); (8668,432); (8668,913); (8449,686); (8445,701); (8441,710); (8437,715); (8433,726); (8429,739); (8425,746); (8421,753);
(8417,758); (8413,767); (8409,772); (8405,677); (8401,781); (8397,793); (8393,799); (8389,803); (8385,805); (8381,813); (8377,815); (8373,819);
(8369,821); (8365,827); (8361,853); (8357,849); (8353,843); (8349,839); (8287,831); (8669,830); (8729,8727); (8731,838); (8733,8725); (8735,842);
(8737,8723); (8739,848); (8741,8721); (8743,852); (8745,8719); (8746,826); (8749,8717); (8751,820); (8753,8715); (8755,818); (8757,8713); (8759,814);
(8761,8711); (8763,812); (8765,8709); (8767,804); (8769,8707); (8771,802); (8773,8705); (8775,798); (8777,8703); (8779,792); (8781,8701); (8783,780);
(8785,8699); (8787,676); (8789,8697); (8791,773); (8793,8695); (8795,766); (8797,8693); (8799,759); (8801,8691); (8803,752); (8805,8689); (8807,747);
(8809,8687); (8811,738); (8813,8685); (8815,727); (8817,8683); (8819,714); (8821,8681); (8823,711); (8825,8679); (8827,700); (8829,8677); (8831,687);
(8833,8675); (8834,672); (8837,912); (8839,8673); (8841,433); (8843,8671); (8844,8660); (8649,686); (8645,701); (8641,710); (8637,715); (8633,726);
(8629,739); (8625,746); (8621,753); (8617,758); (8613,767); (8609,772); (8605,677); (8601,781); (8597,793); (8593,799); (8589,803); (8585,805);
(8581,813); (8577,815); (8573,819); (8569,821); (8565,827); (8561,853); (8557,849); (8553,843); (8549,839); (8545,831); (302,6); (275,6);
(8904,303); (8907,8903); (8909,830); (8911,8901); (8913,838); (8915,8899); (8917,842); (8919,8897); (8921,848); (8923,8895); (8925,852); (8927,8893);
(8928,826); (8931,8891); (8933,820); (8935,8889)].
Definition g11 : list (positive * positive) := [
(8937,818); (8939,8887); (8941,814); (8943,8885); (8945,812); (8947,8883); (8949,804); (8951,8881); (8953,802); (8955,8879); (8957,798); (8959,8877);
(8961,792); (8963,8875); (8965,780); (8967,8873); (8969,676); (8971,8871); (8973,773); (8975,8869); (8977,766); (8979,8867); (8981,759); (8983,8865);
(8985,752); (8987,8863); (8989,747); (8991,8861); (8993,738); (8995,8859); (8997,727); (8999,8857); (9001,714); (9003,8855); (9005,711); (9007,8853);
(9009,700); (9011,8851); (9013,687); (9015,8849); (9016,672); (9018,432); (8909,433); (9023,9021); (306,70); (293,70); (9028,307); (9031,9027);
(9032,432); (9032,913); (8831,686); (8827,701); (8823,710); (8819,715); (8815,726); (8811,739); (8807,746); (8803,753); (8799,758); (8795,767);
(8791,772); (8787,677); (8783,781); (8779,793); (8775,799); (8771,803); (8767,805); (8763,813); (8759,815); (8755,819); (8751,821); (8747,827);
(8743,853); (8739,849); (8735,843); (8731,839); (8669,831); (9033,830); (9093,9091); (9095,838); (9097,9089); (9099,842); (9101,9087); (9103,848);
(9105,9085); (9107,852); (9109,9083); (9111,826); (9113,9081); (9114,820); (9117,9079); (9119,818); (9121,9077); (9123,814); (9125,9075); (9127,812);
(9129,9073); (9131,804); (9133,9071); (9135,802); (9137,9069); (9139,798); (9141,9067); (9143,792); (9145,9065); (9147,780); (9149,9063); (9151,676);
(9153,9061); (9155,773); (9157,9059); (9159,766); (9161,9057); (9163,759); (9165,9055); (9167,752); (9169,9053); (9171,747); (9173,9051); (9175,738);
(9177,9049); (9179,727); (9181,9047); (9183,714); (9185,9045); (9187,711); (9189,9043); (9191,700); (9193,9041); (9195,687); (9197,9039); (9198,672);
(9201,912); (9203,9037); (9205,433); (9207,9035); (9208,9025); (8844,8661); (8845,8660); (9215,9213); (9217,9210); (9219,8847); (9221,8482); (9223,8474);
(9208,9024); (9209,9025); (9229,9227); (9231,9217); (9232,8482); (9013,686); (9009,701); (9005,710); (9001,715); (8997,726); (8993,739); (8989,746);
(8985,753); (8981,758); (8977,767); (8973,772); (8969,677); (8965,781); (8961,793); (8957,799); (8953,803); (8949,805); (8945,813); (8941,815);
(8937,819); (8933,821); (8929,827); (8925,853); (8921,849); (8917,843); (8913,839); (8909,831); (302,4); (275,4); (9292,303); (9295,9291);
(9297,830); (9299,9289); (9301,838); (9303,9287); (9305,842); (9307,9285); (9309,848); (9311,9283); (9313,852); (9315,9281); (9317,826); (9319,9279);
(9320,820); (9323,9277); (9325,818); (9327,9275); (9329,814); (9331,9273); (9333,812); (9335,9271); (9337,804); (9339,9269); (9341,802); (9343,9267);
(9345,798); (9347,9265); (9349,792); (9351,9263); (9353,780); (9355,9261); (9357,676); (9359,9259); (9361,773); (9363,9257); (9365,766); (9367,9255);
(9369,759); (9371,9253); (9373,752); (9375,9251); (9377,747); (9379,9249); (9381,738); (9383,9247); (9385,727); (9387,9245); (9389,714); (9391,9243);
(9393,711); (9395,9241); (9397,700); (9399,9239); (9401,687); (9403,9237); (9404,672); (9407,432); (9296,433); (9411,9409); (306,68); (293,68);
(9416,307); (9419,9415); (9420,432); (9420,913); (9195,686); (9191,701); (9187,710); (9183,715); (9179,726); (9175,739); (9171,746); (9167,753);
(9163,758); (9159,767); (9155,772); (9151,677); (9147,781); (9143,793); (9139,799); (9135,803); (9131,805); (9127,813); (9123,815); (9119,819);
(9115,821); (9111,827); (9107,853); (9103,849); (9099,843); (9095,839); (9033,831); (9421,830); (9481,9479); (9483,838); (9485,9477); (9487,842);
(9489,9475); (9491,848); (9493,9473); (9495,852); (9497,9471); (9499,826); (9501,9469); (9503,820); (9505,9467); (9506,818); (9509,9465); (9511,814);
(9513,9463); (9515,812); (9517,9461); (9519,804); (9521,9459); (9523,802); (9525,9457); (9527,798); (9529,9455); (9531,792); (9533,9453); (9535,780);
(9537,9451); (9539,676); (9541,9449); (9543,773); (9545,9447); (9547,766); (9549,9445); (9551,759); (9553,9443); (9555,752); (9557,9441); (9559,747);
(9561,9439); (9563,738); (9565,9437); (9567,727); (9569,9435); (9571,714); (9573,9433); (9575,711); (9577,9431); (9579,700); (9581,9429); (9583,687);
(9585,9427); (9586,672); (9589,912); (9591,9425); (9593,433); (9595,9423); (9596,9412); (9597,9412); (9596,9413); (9603,9601); (9401,686); (9397,701);
(9393,710); (9389,715); (9385,726); (9381,739); (9377,746); (9373,753); (9369,758); (9365,767); (9361,772); (9357,677); (9353,781); (9349,793);
(9345,799); (9341,803); (9337,805); (9333,813); (9329,815); (9325,819); (9321,821); (9317,827); (9313,853); (9309,849); (9305,843); (9301,839);
(9297,831); (9658,838); (9661,9657); (9663,842); (9665,9655); (9667,848); (9669,9653); (9671,852); (9673,9651); (9675,826); (9677,9649); (9679,820);
(9681,9647); (9682,818); (9685,9645); (9687,814); (9689,9643); (9691,812); (9693,9641); (9695,804); (9697,9639); (9699,802); (9701,9637); (9703,798);
(9705,9635); (9707,792); (9709,9633); (9711,780); (9713,9631); (9715,676); (9717,9629); (9719,773); (9721,9627); (9723,766); (9725,9625); (9727,759);
(9729,9623); (9731,752); (9733,9621); (9735,747)].
Definition g12 : list (positive * positive) := [
(9737,9619); (9739,738); (9741,9617); (9743,727); (9745,9615); (9747,714); (9749,9613); (9751,711); (9753,9611); (9755,700); (9757,9609); (9759,687);
(9761,9607); (9762,672); (9764,432); (9583,686); (9579,701); (9575,710); (9571,715); (9567,726); (9563,739); (9559,746); (9555,753); (9551,758);
(9547,767); (9543,772); (9539,677); (9535,781); (9531,793); (9527,799); (9523,803); (9519,805); (9515,813); (9511,815); (9507,819); (9503,821);
(9499,827); (9495,853); (9491,849); (9487,843); (9483,839); (9421,831); (9820,838); (9823,9819); (9825,842); (9827,9817); (9829,848); (9831,9815);
(9833,852); (9835,9813); (9837,826); (9839,9811); (9841,820); (9843,9809); (9845,818); (9847,9807); (9848,814); (9851,9805); (9853,812); (9855,9803);
(9857,804); (9859,9801); (9861,802); (9863,9799); (9865,798); (9867,9797); (9869,792); (9871,9795); (9873,780); (9875,9793); (9877,676); (9879,9791);
(9881,773); (9883,9789); (9885,766); (9887,9787); (9889,759); (9891,9785); (9893,752); (9895,9783); (9897,747); (9899,9781); (9901,738); (9903,9779);
(9905,727); (9907,9777); (9909,714); (9911,9775); (9913,711); (9915,9773); (9917,700); (9919,9771); (9921,687); (9923,9769); (9924,672); (9926,912);
(9928,433); (9930,9766); (9932,9605); (9935,9599); (9759,686); (9755,701); (9751,710); (9747,715); (9743,726); (9739,739); (9735,746); (9731,753);
(9727,758); (9723,767); (9719,772); (9715,677); (9711,781); (9707,793); (9703,799); (9699,803); (9695,805); (9691,813); (9687,815); (9683,819);
(9679,821); (9675,827); (9671,853); (9667,849); (9663,843); (9297,831); (9988,839); (9990,842); (9993,9987); (9995,848); (9997,9985); (9999,852);
(10001,9983); (10003,826); (10005,9981); (10007,820); (10009,9979); (10011,818); (10013,9977); (10014,814); (10017,9975); (10019,812); (10021,9973); (10023,804);
(10025,9971); (10027,802); (10029,9969); (10031,798); (10033,9967); (10035,792); (10037,9965); (10039,780); (10041,9963); (10043,676); (10045,9961); (10047,773);
(10049,9959); (10051,766); (10053,9957); (10055,759); (10057,9955); (10059,752); (10061,9953); (10063,747); (10065,9951); (10067,738); (10069,9949); (10071,727);
(10073,9947); (10075,714); (10077,9945); (10079,711); (10081,9943); (10083,700); (10085,9941); (10087,687); (10089,9939); (10090,672); (10092,432); (10092,432);
(9921,686); (9917,701); (9913,710); (9909,715); (9905,726); (9901,739); (9897,746); (9893,753); (9889,758); (9885,767); (9881,772); (9877,677);
(9873,781); (9869,793); (9865,799); (9861,803); (9857,805); (9853,813); (9849,815); (9845,819); (9841,821); (9837,827); (9833,853); (9829,849);
(9825,843); (9421,831); (10148,839); (10150,842); (10153,10147); (10155,848); (10157,10145); (10159,852); (10161,10143); (10163,826); (10165,10141); (10167,820);
(10169,10139); (10171,818); (10173,10137); (10175,814); (10177,10135); (10178,812); (10181,10133); (10183,804); (10185,10131); (10187,802); (10189,10129); (10191,798);
(10193,10127); (10195,792); (10197,10125); (10199,780); (10201,10123); (10203,676); (10205,10121); (10207,773); (10209,10119); (10211,766); (10213,10117); (10215,759);
(10217,10115); (10219,752); (10221,10113); (10223,747); (10225,10111); (10227,738); (10229,10109); (10231,727); (10233,10107); (10235,714); (10237,10105); (10239,711);
(10241,10103); (10243,700); (10245,10101); (10247,687); (10249,10099); (10250,672); (10252,912); (10254,433); (10256,10097); (10259,10095); (10083,701); (10079,710);
(10075,715); (10071,726); (10067,739); (10063,746); (10059,753); (10055,758); (10051,767); (10047,772); (10043,677); (10039,781); (10035,793); (10031,799);
(10027,803); (10023,805); (10019,813); (10015,815); (10011,819); (10007,821); (10003,827); (9999,853); (9995,849); (9988,839); (10308,843); (10310,848);
(10313,10307); (10315,852); (10317,10305); (10319,826); (10321,10303); (10323,820); (10325,10301); (10327,818); (10329,10299); (10331,814); (10333,10297); (10334,812);
(10337,10295); (10339,804); (10341,10293); (10343,802); (10345,10291); (10347,798); (10349,10289); (10351,792); (10353,10287); (10355,780); (10357,10285); (10359,676);
(10361,10283); (10363,773); (10365,10281); (10367,766); (10369,10279); (10371,759); (10373,10277); (10375,752); (10377,10275); (10379,747); (10381,10273); (10383,738);
(10385,10271); (10387,727); (10389,10269); (10391,714); (10393,10267); (10395,711); (10397,10265); (10399,700); (10401,10263); (10310,849); (10405,10314); (10406,853);
(10405,852); (10411,10409); (10413,10318); (10414,827); (10413,826); (10419,10417); (10421,10322); (10422,821); (10421,820); (10427,10425); (10429,10326); (10430,819);
(10429,818); (10435,10433); (10437,10330); (10438,815); (10437,814); (10443,10441); (10445,10334); (10446,813); (10445,812); (10451,10449); (10453,10339); (10454,805);
(10453,804); (10459,10457); (10461,10343); (10462,803); (10461,802); (10467,10465); (10469,10347); (10470,799); (10469,798); (10475,10473); (10477,10351); (10478,793);
(10477,792); (10483,10481); (10485,10355); (10486,781); (10485,780); (10491,10489); (10493,10359); (10494,677); (10493,676); (10499,10497); (10501,10363); (10502,772);
(10501,773); (10507,10505); (10509,10367); (10510,767); (10509,766); (10515,10513); (10517,10371); (10518,758); (10517,759); (10523,10521); (10525,10375); (10526,753);
(10525,752); (10531,10529); (10533,10379); (10534,746)].
Definition g13 : list (positive * positive) := [
(10533,747); (10539,10537); (10541,10383); (10542,739); (10541,738); (10547,10545); (10549,10387); (10550,726); (10549,727); (10555,10553); (10557,10391); (10558,715);
(10557,714); (10563,10561); (10565,10395); (10566,710); (10565,711); (10571,10569); (10573,10399); (10574,701); (10573,700); (10579,10577); (10581,10403); (10582,686);
(10581,687); (10587,10585); (10589,672); (9296,8908); (8544,8162); (10594,10592); (7798,7404); (7040,6658); (10600,10598); (10602,10596); (6294,5906); (5542,5160);
(10608,10606); (4796,4402); (4038,3656); (10614,10612); (10616,10610); (10618,10604); (3292,2904); (2540,2158); (10624,10622); (1794,1412); (272,49); (10630,10628);
(10632,10626); (10634,10620); (10636,10589); (10638,673); (10641,10591); (10087,686); (10403,687); (10647,10645); (10648,672); (10651,10643); (10653,432); (10243,701);
(10239,710); (10235,715); (10231,726); (10227,739); (10223,746); (10219,753); (10215,758); (10211,767); (10207,772); (10203,677); (10199,781); (10195,793);
(10191,799); (10187,803); (10183,805); (10179,813); (10175,815); (10171,819); (10167,821); (10163,827); (10159,853); (10155,849); (10148,839); (10702,843);
(10704,848); (10707,10701); (10709,852); (10711,10699); (10713,826); (10715,10697); (10717,820); (10719,10695); (10721,818); (10723,10693); (10725,814); (10727,10691);
(10729,812); (10731,10689); (10732,804); (10735,10687); (10737,802); (10739,10685); (10741,798); (10743,10683); (10745,792); (10747,10681); (10749,780); (10751,10679);
(10753,676); (10755,10677); (10757,773); (10759,10675); (10761,766); (10763,10673); (10765,759); (10767,10671); (10769,752); (10771,10669); (10773,747); (10775,10667);
(10777,738); (10779,10665); (10781,727); (10783,10663); (10785,714); (10787,10661); (10789,711); (10791,10659); (10793,700); (10795,10657); (10704,849); (10799,10708);
(10800,853); (10799,852); (10805,10803); (10807,10712); (10808,827); (10807,826); (10813,10811); (10815,10716); (10816,821); (10815,820); (10821,10819); (10823,10720);
(10824,819); (10823,818); (10829,10827); (10831,10724); (10832,815); (10831,814); (10837,10835); (10839,10728); (10840,813); (10839,812); (10845,10843); (10847,10732);
(10848,805); (10847,804); (10853,10851); (10855,10737); (10856,803); (10855,802); (10861,10859); (10863,10741); (10864,799); (10863,798); (10869,10867); (10871,10745);
(10872,793); (10871,792); (10877,10875); (10879,10749); (10880,781); (10879,780); (10885,10883); (10887,10753); (10888,677); (10887,676); (10893,10891); (10895,10757);
(10896,772); (10895,773); (10901,10899); (10903,10761); (10904,767); (10903,766); (10909,10907); (10911,10765); (10912,758); (10911,759); (10917,10915); (10919,10769);
(10920,753); (10919,752); (10925,10923); (10927,10773); (10928,746); (10927,747); (10933,10931); (10935,10777); (10936,739); (10935,738); (10941,10939); (10943,10781);
(10944,726); (10943,727); (10949,10947); (10951,10785); (10952,715); (10951,714); (10957,10955); (10959,10789); (10960,710); (10959,711); (10965,10963); (10967,10793);
(10968,701); (10967,700); (10973,10971); (10975,10797); (10976,686); (10975,687); (10981,10979); (10983,672); (9420,9032); (8668,8286); (10988,10986); (7922,7528);
(7164,6782); (10994,10992); (10996,10990); (6418,6030); (5666,5284); (11002,11000); (4920,4526); (4162,3780); (11008,11006); (11010,11004); (11012,10998); (3416,3028);
(2664,2282); (11018,11016); (1918,1536); (290,113); (11024,11022); (11026,11020); (11028,11014); (11030,10983); (11032,673); (11035,10985); (10247,686); (10797,687);
(11041,11039); (11042,672); (11045,11037); (11047,912); (11048,433); (11050,10654); (11052,10261); (10256,10096); (11057,11055); (9764,432); (9930,9767); (11063,11061);
(11065,9605); (11066,11059); (11069,9936); (11071,9234); (11073,9224); (11075,7736); (11077,7724); (11079,4734); (11081,4722); (11083,1732); (11085,1724); (11087,987);
(11089,981); (11091,301); (7340,7156); (7341,7157); (11097,11095); (7704,7520); (7705,7521); (11103,11101); (11104,11099); (6594,6410); (6595,6411); (11111,11109);
(6958,6774); (6959,6775); (11117,11115); (11118,11113); (11120,11106); (5842,5658); (5843,5659); (11127,11125); (6206,6022); (6207,6023); (11133,11131); (11134,11129);
(5096,4912); (5097,4913); (11141,11139); (5460,5276); (5461,5277); (11147,11145); (11148,11143); (11150,11136); (11152,11122); (8844,8660); (8845,8661); (11159,11157);
(9208,9024); (9209,9025); (11165,11163); (11166,11161); (8098,7914); (8099,7915); (11173,11171); (8462,8278); (8463,8279); (11179,11177); (11180,11175); (11182,11168);
(9596,9412); (9597,9413); (11189,11187); (9930,9766); (9931,9767); (11195,11193); (11197,11191); (10256,10097); (10257,10096); (11203,11201); (11050,10654); (11051,10655);
(11209,11207); (11211,11204); (11212,11198); (11214,11184); (11216,11154); (4338,4154); (4339,4155); (11223,11221); (4702,4518); (4703,4519); (11229,11227); (11230,11225);
(3592,3408); (3593,3409); (11237,11235); (3956,3772); (3957,3773); (11243,11241); (11244,11239); (11246,11232); (2840,2656); (2841,2657); (11253,11251); (3204,3020);
(3205,3021); (11259,11257); (11260,11255); (2094,1910); (2095,1911); (11267,11265); (2458,2274); (2459,2275); (11273,11271); (11274,11269); (11276,11262); (11278,11248);
(1348,1164); (1349,1165); (11285,11283); (1712,1528); (1713,1529); (11291,11289); (11292,11287); (978,906); (979,907); (11299,11297); (11300,11294); (11302,11280);
(11304,11218); (11287,1728); (11309,1719); (11311,11300); (11313,985); (11269,2474); (11317,2465); (11255,3224); (11321,3211); (11323,11276); (11325,11318); (11239,3972);
(11329,3963); (11225,4726); (11333,4709); (11335,11246)].
Definition g14 : list (positive * positive) := [
(11337,11330); (11339,11278); (11341,11326); (11143,5476); (11345,5467); (11129,6226); (11349,6213); (11351,11150); (11353,11346); (11113,6974); (11357,6965); (11099,7728);
(11361,7711); (11363,11120); (11365,11358); (11367,11152); (11369,11354); (11175,8478); (11373,8469); (11161,9228); (11377,9215); (11379,11182); (11381,11374); (11191,11060);
(11385,9601); (11050,10655); (11389,11204); (11391,10095); (11393,11198); (11395,11386); (11397,11184); (11399,11382); (11401,11154); (11403,11370); (11405,11280); (11407,11342);
(11409,11302); (11411,11314); (11412,11307); (11287,1726); (11417,1717); (11269,2472); (11421,2463); (11255,3222); (11425,3209); (11427,11276); (11429,11422); (11239,3970);
(11433,3961); (11225,4724); (11437,4707); (11439,11246); (11441,11434); (11443,11278); (11445,11430); (11143,5474); (11449,5465); (11129,6224); (11453,6211); (11455,11150);
(11457,11450); (11113,6972); (11461,6963); (11099,7726); (11465,7709); (11467,11120); (11469,11462); (11471,11152); (11473,11458); (11175,8476); (11477,8467); (11161,9226);
(11481,9213); (11483,11182); (11485,11478); (11191,11062); (11489,9603); (10653,432); (11493,11204); (11495,10259); (11497,11198); (11499,11490); (11501,11184); (11503,11486);
(11505,11154); (11507,11474); (11509,11280); (11511,11446); (11513,11294); (11515,11418); (11517,11300); (11519,983); (11520,11414); (11409,11294); (11525,11310); (11527,11300);
(11529,985); (11530,11415); (11533,11523); (11535,300); (11537,11093); (11065,11059); (11541,9933); (11542,9605); (11543,9604); (11547,11545); (11548,301); (11497,11197);
(11553,11063); (11555,11191); (11554,11190); (11559,11557); (11561,11414); (11393,11197); (11565,11061); (11567,11191); (11566,11190); (11571,11569); (11573,11415); (11575,11563);
(11577,300); (11579,11551); (11581,11539); (11087,986); (11086,987); (11587,11585); (11588,301); (11517,11301); (11516,11300); (11595,11593); (11596,11414); (11527,11301);
(11526,11300); (11603,11601); (11604,11415); (11607,11599); (11609,300); (11611,11591); (446,309); (447,305); (11617,11615); (446,320); (447,318); (11623,11621);
(11624,11619); (446,351); (447,349); (11631,11629); (446,339); (447,337); (11637,11635); (11639,11633); (11641,11626); (11643,11626); (11640,11626); (461,446);
(447,387); (11651,11649); (446,375); (447,373); (11657,11655); (11659,11653); (446,418); (447,416); (11665,11663); (446,407); (303,52); (11671,447);
(11673,11669); (11675,11667); (11677,11660); (11679,11660); (11681,11646); (11683,11644); (11675,11666); (11686,11660); (11688,11646); (11691,11685); (11692,11613); (11695,11613);
(11083,1731); (11699,1715); (11701,1721); (11700,1720); (11705,11703); (11707,301); (11513,11292); (11711,1727); (11713,11286); (11712,11287); (11717,11715); (11718,11414);
(11409,11292); (11723,1729); (11725,11286); (11724,11287); (11729,11727); (11730,11415); (11733,11721); (11735,300); (11737,11709); (11739,11694); (11741,11697); (11695,11619);
(11681,11640); (11747,11640); (11748,11624); (11751,11618); (11750,11619); (11755,11753); (11756,11694); (11759,11745); (11695,11625); (11749,11624); (11748,11625); (11767,11765);
(11768,11694); (11771,11763); (11772,11761); (11695,11639); (11680,11633); (11779,11638); (11778,11639); (11783,11781); (11784,11694); (11787,11777); (11695,11632); (11681,11633);
(11680,11632); (11795,11793); (11796,11694); (11799,11791); (11800,11789); (11803,11774); (11805,11774); (11802,11774); (11695,11659); (11676,11653); (11813,11658); (11812,11659);
(11817,11815); (11818,11694); (11821,11811); (11695,11652); (11677,11652); (11676,11653); (11829,11827); (11831,11694); (11833,11825); (11834,11823); (11695,11674); (11674,11666);
(11675,11667); (11843,11841); (11845,11694); (11847,11839); (11694,11666); (11695,11667); (11853,11851); (11855,11848); (11695,11658); (11819,11694); (11861,11859); (11862,11834);
(11864,11857); (11867,11836); (11869,11808); (11871,11806); (11854,11848); (11874,11864); (11876,11808); (11879,11873); (11880,11743); (11883,11743); (11739,11695); (11083,1731);
(11082,1730); (11891,11889); (11893,301); (11513,11293); (11512,11292); (11899,11897); (11900,11414); (11409,11293); (11408,11292); (11907,11905); (11908,11415); (11911,11903);
(11913,300); (11915,11895); (11917,11694); (11919,11887); (11921,11882); (11923,11885); (11883,11761); (11869,11802); (11929,11802); (11930,11772); (11933,11760); (11932,11761);
(11937,11935); (11938,11882); (11941,11927); (11883,11773); (11931,11772); (11930,11773); (11949,11947); (11950,11882); (11953,11945); (11954,11943); (11883,11789); (11868,11800);
(11961,11788); (11960,11789); (11965,11963); (11966,11882); (11969,11959); (11883,11801); (11869,11800); (11868,11801); (11977,11975); (11978,11882); (11981,11973); (11982,11971);
(11985,11956); (11987,11956); (11984,11956); (11883,11823); (11856,11834); (11995,11822); (11994,11823); (11999,11997); (12000,11882); (12003,11993); (11883,11835); (11856,11834);
(11857,11835); (12011,12009); (12013,11882); (12015,12007); (12016,12005); (11883,11849); (11855,11848); (11854,11849); (12025,12023); (12027,11882); (12029,12021); (11882,11854);
(11883,11855); (12035,12033); (12037,12030); (11883,11863); (12001,11882); (12043,12041); (12044,12016); (12046,12039); (12049,12018); (12051,11990); (12053,11988); (12036,12030);
(12056,12046); (12058,11990); (12061,12055); (12062,11925); (12065,11925); (11921,11883); (11917,11695); (11079,4732); (12073,4718); (12075,3228); (12077,3216); (12079,2477);
(12081,2461); (12083,2467); (12082,2466); (12087,12085); (12089,301); (11509,11248); (12093,11442); (12095,11262); (12097,11426); (12099,11274); (12101,2473); (12103,11268);
(12102,11269); (12107,12105); (12108,11414); (11405,11248); (12113,11338); (12115,11262); (12117,11322); (12119,11274); (12121,2475); (12123,11268); (12122,11269); (12127,12125);
(12128,11415); (12131,12111); (12133,300); (12135,12091)].
Definition g15 : list (positive * positive) := [
(12137,11694); (12139,12071); (12141,11882); (12143,12069); (12145,12064); (12147,12067); (12065,11943); (12051,11984); (12153,11984); (12154,11954); (12157,11942); (12156,11943);
(12161,12159); (12162,12064); (12165,12151); (12065,11955); (12155,11954); (12154,11955); (12173,12171); (12174,12064); (12177,12169); (12178,12167); (12065,11971); (12050,11982);
(12185,11970); (12184,11971); (12189,12187); (12190,12064); (12193,12183); (12065,11983); (12051,11982); (12050,11983); (12201,12199); (12202,12064); (12205,12197); (12206,12195);
(12209,12180); (12211,12180); (12208,12180); (12065,12005); (12038,12016); (12219,12004); (12218,12005); (12223,12221); (12224,12064); (12227,12217); (12065,12017); (12038,12016);
(12039,12017); (12235,12233); (12237,12064); (12239,12231); (12240,12229); (12065,12031); (12037,12030); (12036,12031); (12249,12247); (12251,12064); (12253,12245); (12064,12036);
(12065,12037); (12259,12257); (12261,12254); (12065,12045); (12225,12064); (12267,12265); (12268,12240); (12270,12263); (12273,12242); (12275,12214); (12277,12212); (12260,12254);
(12280,12270); (12282,12214); (12285,12279); (12286,12149); (12289,12149); (12145,12065); (12141,11883); (12137,11695); (12079,2477); (12078,2476); (12301,12299); (12303,301);
(12099,11275); (12098,11274); (12309,12307); (12310,11414); (12119,11275); (12118,11274); (12317,12315); (12318,11415); (12321,12313); (12323,300); (12325,12305); (12327,11694);
(12329,12297); (12331,11882); (12333,12295); (12335,12064); (12337,12293); (12339,12288); (12341,12291); (12289,12167); (12275,12208); (12347,12208); (12348,12178); (12351,12166);
(12350,12167); (12355,12353); (12356,12288); (12359,12345); (12289,12179); (12349,12178); (12348,12179); (12367,12365); (12368,12288); (12371,12363); (12372,12361); (12289,12195);
(12274,12206); (12379,12194); (12378,12195); (12383,12381); (12384,12288); (12387,12377); (12289,12207); (12275,12206); (12274,12207); (12395,12393); (12396,12288); (12399,12391);
(12400,12389); (12403,12374); (12405,12374); (12402,12374); (12289,12229); (12262,12240); (12413,12228); (12412,12229); (12417,12415); (12418,12288); (12421,12411); (12289,12241);
(12262,12240); (12263,12241); (12429,12427); (12431,12288); (12433,12425); (12434,12423); (12289,12255); (12261,12254); (12260,12255); (12443,12441); (12445,12288); (12447,12439);
(12288,12260); (12289,12261); (12453,12451); (12455,12448); (12289,12269); (12419,12288); (12461,12459); (12462,12434); (12464,12457); (12467,12436); (12469,12408); (12471,12406);
(12454,12448); (12474,12464); (12476,12408); (12479,12473); (12480,12343); (12483,12343); (12339,12289); (12335,12065); (12331,11883); (12327,11695); (12075,3227); (12495,3207);
(12497,3213); (12496,3212); (12501,12499); (12503,301); (12095,11260); (12507,3223); (12509,11254); (12508,11255); (12513,12511); (12514,11414); (12115,11260); (12519,3225);
(12521,11254); (12520,11255); (12525,12523); (12526,11415); (12529,12517); (12531,300); (12533,12505); (12535,11694); (12537,12493); (12539,11882); (12541,12491); (12543,12064);
(12545,12489); (12547,12288); (12549,12487); (12551,12482); (12553,12485); (12483,12361); (12469,12402); (12559,12402); (12560,12372); (12563,12360); (12562,12361); (12567,12565);
(12568,12482); (12571,12557); (12483,12373); (12561,12372); (12560,12373); (12579,12577); (12580,12482); (12583,12575); (12584,12573); (12483,12389); (12468,12400); (12591,12388);
(12590,12389); (12595,12593); (12596,12482); (12599,12589); (12483,12401); (12469,12400); (12468,12401); (12607,12605); (12608,12482); (12611,12603); (12612,12601); (12615,12586);
(12617,12586); (12614,12586); (12483,12423); (12456,12434); (12625,12422); (12624,12423); (12629,12627); (12630,12482); (12633,12623); (12483,12435); (12456,12434); (12457,12435);
(12641,12639); (12643,12482); (12645,12637); (12646,12635); (12483,12463); (12631,12482); (12653,12651); (12654,12646); (12483,12448); (12455,12448); (12454,12449); (12663,12661);
(12664,12482); (12667,12659); (12482,12454); (12483,12455); (12673,12671); (12675,12669); (12677,12656); (12679,12648); (12681,12620); (12683,12618); (12674,12669); (12686,12656);
(12688,12620); (12691,12685); (12692,12555); (11882,11694); (12697,12065); (11883,11695); (12700,12064); (12703,12699); (12705,12289); (11882,11694); (11883,11695); (12711,12709);
(12712,12064); (12713,12065); (12717,12715); (12718,12704); (12719,12705); (12723,12721); (12725,12288); (12727,12707); (12718,12288); (12719,12289); (12733,12731); (12734,12728);
(12718,12704); (12712,12696); (12740,12064); (12742,12738); (12744,12288); (12743,12289); (12742,12739); (12743,12738); (12753,12751); (12754,12288); (12757,12749); (12758,12746);
(12760,12736); (12762,12482); (12747,12483); (12758,12736); (12769,12746); (12768,12747); (12773,12771); (12774,12482); (12777,12767); (12759,12483); (12758,12737); (12759,12736);
(12785,12783); (12786,12482); (12789,12781); (12790,12778); (12791,12778); (12729,12483); (12734,12728); (12735,12729); (12801,12799); (12803,12482); (12805,12797); (12734,12482);
(12735,12483); (12811,12809); (12812,12806); (12814,12794); (12817,12793); (12819,12764); (12821,12694); (12823,12555); (12551,12483); (12547,12289); (12543,12065); (12539,11883);
(12535,11695); (12075,3227); (12074,3226); (12839,12837); (12841,301); (12095,11261); (12094,11260); (12847,12845); (12848,11414); (12115,11261); (12114,11260); (12855,12853);
(12856,11415); (12859,12851); (12861,300); (12863,12843); (12865,11694); (12867,12835); (12869,11882); (12871,12833); (12873,12064); (12875,12831); (12877,12288); (12879,12829);
(12881,12482); (12883,12827); (12885,12822); (12887,12825); (12823,12573); (12681,12614); (12893,12614); (12894,12584); (12897,12572); (12896,12573); (12901,12899); (12902,12822);
(12905,12891); (12823,12585); (12895,12584); (12894,12585); (12913,12911); (12914,12822); (12917,12909); (12918,12907); (12823,12601); (12680,12612); (12925,12600); (12924,12601);
(12929,12927); (12930,12822); (12933,12923); (12823,12613)].
Definition g16 : list (positive * positive) := [
(12681,12612); (12680,12613); (12941,12939); (12942,12822); (12945,12937); (12946,12935); (12949,12920); (12951,12920); (12948,12920); (12823,12635); (12676,12646); (12959,12634);
(12958,12635); (12963,12961); (12964,12822); (12967,12957); (12823,12647); (12677,12646); (12676,12647); (12975,12973); (12976,12822); (12979,12971); (12980,12969); (12823,12655);
(12965,12822); (12987,12985); (12988,12980); (12823,12669); (12675,12668); (12674,12669); (12997,12995); (12999,12822); (13001,12993); (12822,12674); (12823,12675); (13007,13005);
(13009,13003); (13011,12990); (13013,12982); (13015,12954); (13017,12952); (13008,13003); (13020,12990); (13022,12954); (13025,13019); (13026,12889); (12823,12764); (12814,12792);
(13033,12765); (13032,12764); (13037,13035); (13038,12822); (13041,13031); (12823,12779); (12814,12790); (13047,12778); (13046,12779); (13051,13049); (13052,12822); (13055,13045);
(12823,12791); (12814,12791); (12815,12790); (13063,13061); (13064,12822); (13067,13059); (13068,13056); (13069,13056); (12823,12807); (12812,12806); (12813,12807); (13079,13077);
(13081,12822); (13083,13075); (12822,12812); (12823,12813); (13089,13087); (13090,13084); (13092,13072); (13095,13071); (13097,13043); (13099,13028); (13101,12889); (12885,12823);
(12881,12483); (12877,12289); (12873,12065); (12869,11883); (12865,11695); (11079,4730); (13117,4714); (13119,3975); (13121,3959); (13123,3965); (13122,3964); (13127,13125);
(13129,301); (11509,11232); (13133,11438); (13135,11244); (13137,3971); (13139,11238); (13138,11239); (13143,13141); (13144,11414); (11405,11232); (13149,11334); (13151,11244);
(13153,3973); (13155,11238); (13154,11239); (13159,13157); (13160,11415); (13163,13147); (13165,300); (13167,13131); (13169,11694); (13171,13115); (13173,11882); (13175,13113);
(13177,12064); (13179,13111); (13181,12288); (13183,13109); (13185,12482); (13187,13107); (13189,12822); (13191,13105); (13193,13100); (13195,13103); (13101,12907); (13015,12948);
(13201,12948); (13202,12918); (13205,12906); (13204,12907); (13209,13207); (13210,13100); (13213,13199); (13101,12919); (13203,12918); (13202,12919); (13221,13219); (13222,13100);
(13225,13217); (13226,13215); (13101,12935); (13014,12946); (13233,12934); (13232,12935); (13237,13235); (13238,13100); (13241,13231); (13101,12947); (13015,12946); (13014,12947);
(13249,13247); (13250,13100); (13253,13245); (13254,13243); (13257,13228); (13259,13228); (13256,13228); (13101,12969); (13010,12980); (13267,12968); (13266,12969); (13271,13269);
(13272,13100); (13275,13265); (13101,12981); (13011,12980); (13010,12981); (13283,13281); (13284,13100); (13287,13279); (13288,13277); (13101,12989); (13273,13100); (13295,13293);
(13296,13288); (13101,13003); (13009,13002); (13008,13003); (13305,13303); (13307,13100); (13309,13301); (13100,13008); (13101,13009); (13315,13313); (13317,13311); (13319,13298);
(13321,13290); (13323,13262); (13325,13260); (13316,13311); (13328,13298); (13330,13262); (13333,13327); (13334,13197); (13101,13043); (13092,13070); (13341,13042); (13340,13043);
(13345,13343); (13346,13100); (13349,13339); (13101,13057); (13092,13068); (13355,13056); (13354,13057); (13359,13357); (13360,13100); (13363,13353); (13101,13069); (13092,13069);
(13093,13068); (13371,13369); (13372,13100); (13375,13367); (13376,13364); (13377,13364); (13101,13085); (13090,13084); (13091,13085); (13387,13385); (13389,13100); (13391,13383);
(13100,13090); (13101,13091); (13397,13395); (13398,13392); (13400,13380); (13403,13379); (13405,13351); (13407,13336); (13409,13197); (13193,13101); (13189,12823); (13185,12483);
(13181,12289); (13177,12065); (13173,11883); (13169,11695); (13119,3975); (13118,3974); (13429,13427); (13431,301); (13135,11245); (13134,11244); (13437,13435); (13438,11414);
(13151,11245); (13150,11244); (13445,13443); (13446,11415); (13449,13441); (13451,300); (13453,13433); (13455,11694); (13457,13425); (13459,11882); (13461,13423); (13463,12064);
(13465,13421); (13467,12288); (13469,13419); (13471,12482); (13473,13417); (13475,12822); (13477,13415); (13479,13100); (13481,13413); (13483,13408); (13485,13411); (13409,13215);
(13323,13256); (13491,13256); (13492,13226); (13495,13214); (13494,13215); (13499,13497); (13500,13408); (13503,13489); (13409,13227); (13493,13226); (13492,13227); (13511,13509);
(13512,13408); (13515,13507); (13516,13505); (13409,13243); (13322,13254); (13523,13242); (13522,13243); (13527,13525); (13528,13408); (13531,13521); (13409,13255); (13323,13254);
(13322,13255); (13539,13537); (13540,13408); (13543,13535); (13544,13533); (13547,13518); (13549,13518); (13546,13518); (13409,13277); (13318,13288); (13557,13276); (13556,13277);
(13561,13559); (13562,13408); (13565,13555); (13409,13289); (13319,13288); (13318,13289); (13573,13571); (13574,13408); (13577,13569); (13578,13567); (13409,13297); (13563,13408);
(13585,13583); (13586,13578); (13409,13311); (13317,13310); (13316,13311); (13595,13593); (13597,13408); (13599,13591); (13408,13316); (13409,13317); (13605,13603); (13607,13601);
(13609,13588); (13611,13580); (13613,13552); (13615,13550); (13606,13601); (13618,13588); (13620,13552); (13623,13617); (13624,13487); (13409,13351); (13400,13378); (13631,13350);
(13630,13351); (13635,13633); (13636,13408); (13639,13629); (13409,13365); (13400,13376); (13645,13364); (13644,13365); (13649,13647); (13650,13408); (13653,13643); (13409,13377);
(13400,13377); (13401,13376); (13661,13659); (13662,13408); (13665,13657); (13666,13654); (13667,13654); (13409,13393); (13398,13392); (13399,13393); (13677,13675); (13679,13408);
(13681,13673); (13408,13398); (13409,13399); (13687,13685); (13688,13682); (13690,13670); (13693,13669); (13695,13641); (13697,13626); (13699,13487); (13483,13409); (13479,13101);
(13475,12823); (13471,12483); (13467,12289); (13463,12065); (13459,11883); (13455,11695); (11079,4729); (13719,4705); (13721,4711); (13720,4710); (13725,13723); (13727,301);
(11509,11230); (13731,4725); (13733,11224); (13732,11225)].
Definition g17 : list (positive * positive) := [
(13737,13735); (13738,11414); (11405,11230); (13743,4727); (13745,11224); (13744,11225); (13749,13747); (13750,11415); (13753,13741); (13755,300); (13757,13729); (13759,11694);
(13761,13717); (13763,11882); (13765,13715); (13767,12064); (13769,13713); (13771,12288); (13773,13711); (13775,12482); (13777,13709); (13779,12822); (13781,13707); (13783,13100);
(13785,13705); (13787,13408); (13789,13703); (13791,13698); (13793,13701); (13699,13505); (13613,13546); (13799,13546); (13800,13516); (13803,13504); (13802,13505); (13807,13805);
(13808,13698); (13811,13797); (13699,13517); (13801,13516); (13800,13517); (13819,13817); (13820,13698); (13823,13815); (13824,13813); (13699,13533); (13612,13544); (13831,13532);
(13830,13533); (13835,13833); (13836,13698); (13839,13829); (13699,13545); (13613,13544); (13612,13545); (13847,13845); (13848,13698); (13851,13843); (13852,13841); (13855,13826);
(13857,13826); (13854,13826); (13699,13567); (13608,13578); (13865,13566); (13864,13567); (13869,13867); (13870,13698); (13873,13863); (13699,13579); (13609,13578); (13608,13579);
(13881,13879); (13882,13698); (13885,13877); (13886,13875); (13699,13587); (13871,13698); (13893,13891); (13894,13886); (13699,13601); (13607,13600); (13606,13601); (13903,13901);
(13905,13698); (13907,13899); (13698,13606); (13699,13607); (13913,13911); (13915,13909); (13917,13896); (13919,13888); (13921,13860); (13923,13858); (13914,13909); (13926,13896);
(13928,13860); (13931,13925); (13932,13795); (13699,13641); (13690,13668); (13939,13640); (13938,13641); (13943,13941); (13944,13698); (13947,13937); (13699,13655); (13690,13666);
(13953,13654); (13952,13655); (13957,13955); (13958,13698); (13961,13951); (13699,13667); (13690,13667); (13691,13666); (13969,13967); (13970,13698); (13973,13965); (13974,13962);
(13975,13962); (13699,13683); (13688,13682); (13689,13683); (13985,13983); (13987,13698); (13989,13981); (13698,13688); (13699,13689); (13995,13993); (13996,13990); (13998,13978);
(14001,13977); (14003,13949); (14005,13934); (14007,13795); (13791,13699); (13787,13409); (13783,13101); (13779,12823); (13775,12483); (13771,12289); (13767,12065); (13763,11883);
(13759,11695); (11079,4729); (11078,4728); (14031,14029); (14033,301); (11509,11231); (11508,11230); (14039,14037); (14040,11414); (11405,11231); (11404,11230); (14047,14045);
(14048,11415); (14051,14043); (14053,300); (14055,14035); (14057,11694); (14059,14027); (14061,11882); (14063,14025); (14065,12064); (14067,14023); (14069,12288); (14071,14021);
(14073,12482); (14075,14019); (14077,12822); (14079,14017); (14081,13100); (14083,14015); (14085,13408); (14087,14013); (14089,13698); (14091,14011); (14093,14006); (14095,14009);
(14007,13813); (13921,13854); (14101,13854); (14102,13824); (14105,13812); (14104,13813); (14109,14107); (14110,14006); (14113,14099); (14007,13825); (14103,13824); (14102,13825);
(14121,14119); (14122,14006); (14125,14117); (14126,14115); (14007,13841); (13920,13852); (14133,13840); (14132,13841); (14137,14135); (14138,14006); (14141,14131); (14007,13853);
(13921,13852); (13920,13853); (14149,14147); (14150,14006); (14153,14145); (14154,14143); (14157,14128); (14159,14128); (14156,14128); (14007,13875); (13916,13886); (14167,13874);
(14166,13875); (14171,14169); (14172,14006); (14175,14165); (14007,13887); (13917,13886); (13916,13887); (14183,14181); (14184,14006); (14187,14179); (14188,14177); (14007,13895);
(14173,14006); (14195,14193); (14196,14188); (14007,13909); (13915,13908); (13914,13909); (14205,14203); (14207,14006); (14209,14201); (14006,13914); (14007,13915); (14215,14213);
(14217,14211); (14219,14198); (14221,14190); (14223,14162); (14225,14160); (14216,14211); (14228,14198); (14230,14162); (14233,14227); (14234,14097); (14007,13949); (13998,13976);
(14241,13948); (14240,13949); (14245,14243); (14246,14006); (14249,14239); (14007,13963); (13998,13974); (14255,13962); (14254,13963); (14259,14257); (14260,14006); (14263,14253);
(14007,13975); (13998,13975); (13999,13974); (14271,14269); (14272,14006); (14275,14267); (14276,14264); (14277,14264); (14007,13991); (13996,13990); (13997,13991); (14287,14285);
(14289,14006); (14291,14283); (14006,13996); (14007,13997); (14297,14295); (14298,14292); (14300,14280); (14303,14279); (14305,14251); (14307,14236); (14309,14097); (14093,14007);
(14089,13699); (14085,13409); (14081,13101); (14077,12823); (14073,12483); (14069,12289); (14065,12065); (14061,11883); (14057,11695); (11075,7734); (14333,7720); (14335,6230);
(14337,6218); (14339,5479); (14341,5463); (14343,5469); (14342,5468); (14347,14345); (14349,301); (11505,11122); (14353,11470); (14355,11136); (14357,11454); (14359,11148);
(14361,5475); (14363,11142); (14362,11143); (14367,14365); (14368,11414); (11401,11122); (14373,11366); (14375,11136); (14377,11350); (14379,11148); (14381,5477); (14383,11142);
(14382,11143); (14387,14385); (14388,11415); (14391,14371); (14393,300); (14395,14351); (14397,11694); (14399,14331); (14401,11882); (14403,14329); (14405,12064); (14407,14327);
(14409,12288); (14411,14325); (14413,12482); (14415,14323); (14417,12822); (14419,14321); (14421,13100); (14423,14319); (14425,13408); (14427,14317); (14429,13698); (14431,14315);
(14433,14006); (14435,14313); (14437,14308); (14439,14311); (14309,14115); (14223,14156); (14445,14156); (14446,14126); (14449,14114); (14448,14115); (14453,14451); (14454,14308);
(14457,14443); (14309,14127); (14447,14126); (14446,14127); (14465,14463); (14466,14308); (14469,14461); (14470,14459); (14309,14143); (14222,14154); (14477,14142); (14476,14143);
(14481,14479); (14482,14308); (14485,14475); (14309,14155); (14223,14154); (14222,14155); (14493,14491); (14494,14308); (14497,14489); (14498,14487); (14501,14472); (14503,14472);
(14500,14472); (14309,14177); (14218,14188); (14511,14176); (14510,14177); (14515,14513); (14516,14308); (14519,14509); (14309,14189); (14219,14188); (14218,14189); (14527,14525);
(14528,14308); (14531,14523); (14532,14521); (14309,14197)].
Definition g18 : list (positive * positive) := [
(14517,14308); (14539,14537); (14540,14532); (14309,14211); (14217,14210); (14216,14211); (14549,14547); (14551,14308); (14553,14545); (14308,14216); (14309,14217); (14559,14557);
(14561,14555); (14563,14542); (14565,14534); (14567,14506); (14569,14504); (14560,14555); (14572,14542); (14574,14506); (14577,14571); (14578,14441); (14309,14251); (14300,14278);
(14585,14250); (14584,14251); (14589,14587); (14590,14308); (14593,14583); (14309,14265); (14300,14276); (14599,14264); (14598,14265); (14603,14601); (14604,14308); (14607,14597);
(14309,14277); (14300,14277); (14301,14276); (14615,14613); (14616,14308); (14619,14611); (14620,14608); (14621,14608); (14309,14293); (14298,14292); (14299,14293); (14631,14629);
(14633,14308); (14635,14627); (14308,14298); (14309,14299); (14641,14639); (14642,14636); (14644,14624); (14647,14623); (14649,14595); (14651,14580); (14653,14441); (14437,14309);
(14433,14007); (14429,13699); (14425,13409); (14421,13101); (14417,12823); (14413,12483); (14409,12289); (14405,12065); (14401,11883); (14397,11695); (14339,5479); (14338,5478);
(14681,14679); (14683,301); (14359,11149); (14358,11148); (14689,14687); (14690,11414); (14379,11149); (14378,11148); (14697,14695); (14698,11415); (14701,14693); (14703,300);
(14705,14685); (14707,11694); (14709,14677); (14711,11882); (14713,14675); (14715,12064); (14717,14673); (14719,12288); (14721,14671); (14723,12482); (14725,14669); (14727,12822);
(14729,14667); (14731,13100); (14733,14665); (14735,13408); (14737,14663); (14739,13698); (14741,14661); (14743,14006); (14745,14659); (14747,14308); (14749,14657); (14751,14652);
(14753,14655); (14653,14459); (14567,14500); (14759,14500); (14760,14470); (14763,14458); (14762,14459); (14767,14765); (14768,14652); (14771,14757); (14653,14471); (14761,14470);
(14760,14471); (14779,14777); (14780,14652); (14783,14775); (14784,14773); (14653,14487); (14566,14498); (14791,14486); (14790,14487); (14795,14793); (14796,14652); (14799,14789);
(14653,14499); (14567,14498); (14566,14499); (14807,14805); (14808,14652); (14811,14803); (14812,14801); (14815,14786); (14817,14786); (14814,14786); (14653,14521); (14562,14532);
(14825,14520); (14824,14521); (14829,14827); (14830,14652); (14833,14823); (14653,14533); (14563,14532); (14562,14533); (14841,14839); (14842,14652); (14845,14837); (14846,14835);
(14653,14541); (14831,14652); (14853,14851); (14854,14846); (14653,14555); (14561,14554); (14560,14555); (14863,14861); (14865,14652); (14867,14859); (14652,14560); (14653,14561);
(14873,14871); (14875,14869); (14877,14856); (14879,14848); (14881,14820); (14883,14818); (14874,14869); (14886,14856); (14888,14820); (14891,14885); (14892,14755); (14653,14595);
(14644,14622); (14899,14594); (14898,14595); (14903,14901); (14904,14652); (14907,14897); (14653,14609); (14644,14620); (14913,14608); (14912,14609); (14917,14915); (14918,14652);
(14921,14911); (14653,14621); (14644,14621); (14645,14620); (14929,14927); (14930,14652); (14933,14925); (14934,14922); (14935,14922); (14653,14637); (14642,14636); (14643,14637);
(14945,14943); (14947,14652); (14949,14941); (14652,14642); (14653,14643); (14955,14953); (14956,14950); (14958,14938); (14961,14937); (14963,14909); (14965,14894); (14967,14755);
(14751,14653); (14747,14309); (14743,14007); (14739,13699); (14735,13409); (14731,13101); (14727,12823); (14723,12483); (14719,12289); (14715,12065); (14711,11883); (14707,11695);
(14335,6229); (14995,6209); (14997,6215); (14996,6214); (15001,14999); (15003,301); (14355,11134); (15007,6225); (15009,11128); (15008,11129); (15013,15011); (15014,11414);
(14375,11134); (15019,6227); (15021,11128); (15020,11129); (15025,15023); (15026,11415); (15029,15017); (15031,300); (15033,15005); (15035,11694); (15037,14993); (15039,11882);
(15041,14991); (15043,12064); (15045,14989); (15047,12288); (15049,14987); (15051,12482); (15053,14985); (15055,12822); (15057,14983); (15059,13100); (15061,14981); (15063,13408);
(15065,14979); (15067,13698); (15069,14977); (15071,14006); (15073,14975); (15075,14308); (15077,14973); (15079,14652); (15081,14971); (15083,14966); (15085,14969); (14967,14773);
(14881,14814); (15091,14814); (15092,14784); (15095,14772); (15094,14773); (15099,15097); (15100,14966); (15103,15089); (14967,14785); (15093,14784); (15092,14785); (15111,15109);
(15112,14966); (15115,15107); (15116,15105); (14967,14801); (14880,14812); (15123,14800); (15122,14801); (15127,15125); (15128,14966); (15131,15121); (14967,14813); (14881,14812);
(14880,14813); (15139,15137); (15140,14966); (15143,15135); (15144,15133); (15147,15118); (15149,15118); (15146,15118); (14967,14835); (14876,14846); (15157,14834); (15156,14835);
(15161,15159); (15162,14966); (15165,15155); (14967,14847); (14877,14846); (14876,14847); (15173,15171); (15174,14966); (15177,15169); (15178,15167); (14967,14855); (15163,14966);
(15185,15183); (15186,15178); (14967,14869); (14875,14868); (14874,14869); (15195,15193); (15197,14966); (15199,15191); (14966,14874); (14967,14875); (15205,15203); (15207,15201);
(15209,15188); (15211,15180); (15213,15152); (15215,15150); (15206,15201); (15218,15188); (15220,15152); (15223,15217); (15224,15087); (14967,14909); (14958,14936); (15231,14908);
(15230,14909); (15235,15233); (15236,14966); (15239,15229); (14967,14923); (14958,14934); (15245,14922); (15244,14923); (15249,15247); (15250,14966); (15253,15243); (14967,14935);
(14958,14935); (14959,14934); (15261,15259); (15262,14966); (15265,15257); (15266,15254); (15267,15254); (14967,14951); (14956,14950); (14957,14951); (15277,15275); (15279,14966);
(15281,15273); (14966,14956); (14967,14957); (15287,15285); (15288,15282); (15290,15270); (15293,15269); (15295,15241); (15297,15226); (15299,15087); (15083,14967); (15079,14653);
(15075,14309); (15071,14007); (15067,13699); (15063,13409); (15059,13101); (15055,12823); (15051,12483); (15047,12289); (15043,12065); (15039,11883); (15035,11695); (14335,6229);
(14334,6228); (15331,15329); (15333,301); (14355,11135)].
Definition g19 : list (positive * positive) := [
(14354,11134); (15339,15337); (15340,11414); (14375,11135); (14374,11134); (15347,15345); (15348,11415); (15351,15343); (15353,300); (15355,15335); (15357,11694); (15359,15327);
(15361,11882); (15363,15325); (15365,12064); (15367,15323); (15369,12288); (15371,15321); (15373,12482); (15375,15319); (15377,12822); (15379,15317); (15381,13100); (15383,15315);
(15385,13408); (15387,15313); (15389,13698); (15391,15311); (15393,14006); (15395,15309); (15397,14308); (15399,15307); (15401,14652); (15403,15305); (15405,14966); (15407,15303);
(15409,15298); (15411,15301); (15299,15105); (15213,15146); (15417,15146); (15418,15116); (15421,15104); (15420,15105); (15425,15423); (15426,15298); (15429,15415); (15299,15117);
(15419,15116); (15418,15117); (15437,15435); (15438,15298); (15441,15433); (15442,15431); (15299,15133); (15212,15144); (15449,15132); (15448,15133); (15453,15451); (15454,15298);
(15457,15447); (15299,15145); (15213,15144); (15212,15145); (15465,15463); (15466,15298); (15469,15461); (15470,15459); (15473,15444); (15475,15444); (15472,15444); (15299,15167);
(15208,15178); (15483,15166); (15482,15167); (15487,15485); (15488,15298); (15491,15481); (15299,15179); (15209,15178); (15208,15179); (15499,15497); (15500,15298); (15503,15495);
(15504,15493); (15299,15187); (15489,15298); (15511,15509); (15512,15504); (15299,15201); (15207,15200); (15206,15201); (15521,15519); (15523,15298); (15525,15517); (15298,15206);
(15299,15207); (15531,15529); (15533,15527); (15535,15514); (15537,15506); (15539,15478); (15541,15476); (15532,15527); (15544,15514); (15546,15478); (15549,15543); (15550,15413);
(15299,15241); (15290,15268); (15557,15240); (15556,15241); (15561,15559); (15562,15298); (15565,15555); (15299,15255); (15290,15266); (15571,15254); (15570,15255); (15575,15573);
(15576,15298); (15579,15569); (15299,15267); (15290,15267); (15291,15266); (15587,15585); (15588,15298); (15591,15583); (15592,15580); (15593,15580); (15299,15283); (15288,15282);
(15289,15283); (15603,15601); (15605,15298); (15607,15599); (15298,15288); (15299,15289); (15613,15611); (15614,15608); (15616,15596); (15619,15595); (15621,15567); (15623,15552);
(15625,15413); (15409,15299); (15405,14967); (15401,14653); (15397,14309); (15393,14007); (15389,13699); (15385,13409); (15381,13101); (15377,12823); (15373,12483); (15369,12289);
(15365,12065); (15361,11883); (15357,11695); (11075,7732); (15657,7716); (15659,6977); (15661,6961); (15663,6967); (15662,6966); (15667,15665); (15669,301); (11505,11106);
(15673,11466); (15675,11118); (15677,6973); (15679,11112); (15678,11113); (15683,15681); (15684,11414); (11401,11106); (15689,11362); (15691,11118); (15693,6975); (15695,11112);
(15694,11113); (15699,15697); (15700,11415); (15703,15687); (15705,300); (15707,15671); (15709,11694); (15711,15655); (15713,11882); (15715,15653); (15717,12064); (15719,15651);
(15721,12288); (15723,15649); (15725,12482); (15727,15647); (15729,12822); (15731,15645); (15733,13100); (15735,15643); (15737,13408); (15739,15641); (15741,13698); (15743,15639);
(15745,14006); (15747,15637); (15749,14308); (15751,15635); (15753,14652); (15755,15633); (15757,14966); (15759,15631); (15761,15298); (15763,15629); (15765,15624); (15767,15627);
(15625,15431); (15539,15472); (15773,15472); (15774,15442); (15777,15430); (15776,15431); (15781,15779); (15782,15624); (15785,15771); (15625,15443); (15775,15442); (15774,15443);
(15793,15791); (15794,15624); (15797,15789); (15798,15787); (15625,15459); (15538,15470); (15805,15458); (15804,15459); (15809,15807); (15810,15624); (15813,15803); (15625,15471);
(15539,15470); (15538,15471); (15821,15819); (15822,15624); (15825,15817); (15826,15815); (15829,15800); (15831,15800); (15828,15800); (15625,15493); (15534,15504); (15839,15492);
(15838,15493); (15843,15841); (15844,15624); (15847,15837); (15625,15505); (15535,15504); (15534,15505); (15855,15853); (15856,15624); (15859,15851); (15860,15849); (15625,15513);
(15845,15624); (15867,15865); (15868,15860); (15625,15527); (15533,15526); (15532,15527); (15877,15875); (15879,15624); (15881,15873); (15624,15532); (15625,15533); (15887,15885);
(15889,15883); (15891,15870); (15893,15862); (15895,15834); (15897,15832); (15888,15883); (15900,15870); (15902,15834); (15905,15899); (15906,15769); (15625,15567); (15616,15594);
(15913,15566); (15912,15567); (15917,15915); (15918,15624); (15921,15911); (15625,15581); (15616,15592); (15927,15580); (15926,15581); (15931,15929); (15932,15624); (15935,15925);
(15625,15593); (15616,15593); (15617,15592); (15943,15941); (15944,15624); (15947,15939); (15948,15936); (15949,15936); (15625,15609); (15614,15608); (15615,15609); (15959,15957);
(15961,15624); (15963,15955); (15624,15614); (15625,15615); (15969,15967); (15970,15964); (15972,15952); (15975,15951); (15977,15923); (15979,15908); (15981,15769); (15765,15625);
(15761,15299); (15757,14967); (15753,14653); (15749,14309); (15745,14007); (15741,13699); (15737,13409); (15733,13101); (15729,12823); (15725,12483); (15721,12289); (15717,12065);
(15713,11883); (15709,11695); (15659,6977); (15658,6976); (16017,16015); (16019,301); (15675,11119); (15674,11118); (16025,16023); (16026,11414); (15691,11119); (15690,11118);
(16033,16031); (16034,11415); (16037,16029); (16039,300); (16041,16021); (16043,11694); (16045,16013); (16047,11882); (16049,16011); (16051,12064); (16053,16009); (16055,12288);
(16057,16007); (16059,12482); (16061,16005); (16063,12822); (16065,16003); (16067,13100); (16069,16001); (16071,13408); (16073,15999); (16075,13698); (16077,15997); (16079,14006);
(16081,15995); (16083,14308); (16085,15993); (16087,14652); (16089,15991); (16091,14966); (16093,15989); (16095,15298); (16097,15987); (16099,15624); (16101,15985); (16103,15980);
(16105,15983); (15981,15787); (15895,15828); (16111,15828); (16112,15798); (16115,15786); (16114,15787); (16119,16117); (16120,15980); (16123,16109); (15981,15799); (16113,15798);
(16112,15799); (16131,16129); (16132,15980); (16135,16127)].
Definition g20 : list (positive * positive) := [
(16136,16125); (15981,15815); (15894,15826); (16143,15814); (16142,15815); (16147,16145); (16148,15980); (16151,16141); (15981,15827); (15895,15826); (15894,15827); (16159,16157);
(16160,15980); (16163,16155); (16164,16153); (16167,16138); (16169,16138); (16166,16138); (15981,15849); (15890,15860); (16177,15848); (16176,15849); (16181,16179); (16182,15980);
(16185,16175); (15981,15861); (15891,15860); (15890,15861); (16193,16191); (16194,15980); (16197,16189); (16198,16187); (15981,15869); (16183,15980); (16205,16203); (16206,16198);
(15981,15883); (15889,15882); (15888,15883); (16215,16213); (16217,15980); (16219,16211); (15980,15888); (15981,15889); (16225,16223); (16227,16221); (16229,16208); (16231,16200);
(16233,16172); (16235,16170); (16226,16221); (16238,16208); (16240,16172); (16243,16237); (16244,16107); (15981,15923); (15972,15950); (16251,15922); (16250,15923); (16255,16253);
(16256,15980); (16259,16249); (15981,15937); (15972,15948); (16265,15936); (16264,15937); (16269,16267); (16270,15980); (16273,16263); (15981,15949); (15972,15949); (15973,15948);
(16281,16279); (16282,15980); (16285,16277); (16286,16274); (16287,16274); (15981,15965); (15970,15964); (15971,15965); (16297,16295); (16299,15980); (16301,16293); (15980,15970);
(15981,15971); (16307,16305); (16308,16302); (16310,16290); (16313,16289); (16315,16261); (16317,16246); (16319,16107); (16103,15981); (16099,15625); (16095,15299); (16091,14967);
(16087,14653); (16083,14309); (16079,14007); (16075,13699); (16071,13409); (16067,13101); (16063,12823); (16059,12483); (16055,12289); (16051,12065); (16047,11883); (16043,11695);
(11075,7731); (16355,7707); (16357,7713); (16356,7712); (16361,16359); (16363,301); (11505,11104); (16367,7727); (16369,11098); (16368,11099); (16373,16371); (16374,11414);
(11401,11104); (16379,7729); (16381,11098); (16380,11099); (16385,16383); (16386,11415); (16389,16377); (16391,300); (16393,16365); (16395,11694); (16397,16353); (16399,11882);
(16401,16351); (16403,12064); (16405,16349); (16407,12288); (16409,16347); (16411,12482); (16413,16345); (16415,12822); (16417,16343); (16419,13100); (16421,16341); (16423,13408);
(16425,16339); (16427,13698); (16429,16337); (16431,14006); (16433,16335); (16435,14308); (16437,16333); (16439,14652); (16441,16331); (16443,14966); (16445,16329); (16447,15298);
(16449,16327); (16451,15624); (16453,16325); (16455,15980); (16457,16323); (16459,16318); (16461,16321); (16319,16125); (16233,16166); (16467,16166); (16468,16136); (16471,16124);
(16470,16125); (16475,16473); (16476,16318); (16479,16465); (16319,16137); (16469,16136); (16468,16137); (16487,16485); (16488,16318); (16491,16483); (16492,16481); (16319,16153);
(16232,16164); (16499,16152); (16498,16153); (16503,16501); (16504,16318); (16507,16497); (16319,16165); (16233,16164); (16232,16165); (16515,16513); (16516,16318); (16519,16511);
(16520,16509); (16523,16494); (16525,16494); (16522,16494); (16319,16187); (16228,16198); (16533,16186); (16532,16187); (16537,16535); (16538,16318); (16541,16531); (16319,16199);
(16229,16198); (16228,16199); (16549,16547); (16550,16318); (16553,16545); (16554,16543); (16319,16207); (16539,16318); (16561,16559); (16562,16554); (16319,16221); (16227,16220);
(16226,16221); (16571,16569); (16573,16318); (16575,16567); (16318,16226); (16319,16227); (16581,16579); (16583,16577); (16585,16564); (16587,16556); (16589,16528); (16591,16526);
(16582,16577); (16594,16564); (16596,16528); (16599,16593); (16600,16463); (16319,16261); (16310,16288); (16607,16260); (16606,16261); (16611,16609); (16612,16318); (16615,16605);
(16319,16275); (16310,16286); (16621,16274); (16620,16275); (16625,16623); (16626,16318); (16629,16619); (16319,16287); (16310,16287); (16311,16286); (16637,16635); (16638,16318);
(16641,16633); (16642,16630); (16643,16630); (16319,16303); (16308,16302); (16309,16303); (16653,16651); (16655,16318); (16657,16649); (16318,16308); (16319,16309); (16663,16661);
(16664,16658); (16666,16646); (16669,16645); (16671,16617); (16673,16602); (16675,16463); (16459,16319); (16455,15981); (16451,15625); (16447,15299); (16443,14967); (16439,14653);
(16435,14309); (16431,14007); (16427,13699); (16423,13409); (16419,13101); (16415,12823); (16411,12483); (16407,12289); (16403,12065); (16399,11883); (16395,11695); (11075,7731);
(11074,7730); (16715,16713); (16717,301); (11505,11105); (11504,11104); (16723,16721); (16724,11414); (11401,11105); (11400,11104); (16731,16729); (16732,11415); (16735,16727);
(16737,300); (16739,16719); (16741,11694); (16743,16711); (16745,11882); (16747,16709); (16749,12064); (16751,16707); (16753,12288); (16755,16705); (16757,12482); (16759,16703);
(16761,12822); (16763,16701); (16765,13100); (16767,16699); (16769,13408); (16771,16697); (16773,13698); (16775,16695); (16777,14006); (16779,16693); (16781,14308); (16783,16691);
(16785,14652); (16787,16689); (16789,14966); (16791,16687); (16793,15298); (16795,16685); (16797,15624); (16799,16683); (16801,15980); (16803,16681); (16805,16318); (16807,16679);
(16809,16674); (16811,16677); (16675,16481); (16589,16522); (16817,16522); (16818,16492); (16821,16480); (16820,16481); (16825,16823); (16826,16674); (16829,16815); (16675,16493);
(16819,16492); (16818,16493); (16837,16835); (16838,16674); (16841,16833); (16842,16831); (16675,16509); (16588,16520); (16849,16508); (16848,16509); (16853,16851); (16854,16674);
(16857,16847); (16675,16521); (16589,16520); (16588,16521); (16865,16863); (16866,16674); (16869,16861); (16870,16859); (16873,16844); (16875,16844); (16872,16844); (16675,16543);
(16584,16554); (16883,16542); (16882,16543); (16887,16885); (16888,16674); (16891,16881); (16675,16555); (16585,16554); (16584,16555); (16899,16897); (16900,16674); (16903,16895);
(16904,16893); (16675,16563); (16889,16674); (16911,16909); (16912,16904); (16675,16577); (16583,16576); (16582,16577); (16921,16919); (16923,16674); (16925,16917); (16674,16582);
(16675,16583); (16931,16929); (16933,16927); (16935,16914)].
Definition g21 : list (positive * positive) := [
(16937,16906); (16939,16878); (16941,16876); (16932,16927); (16944,16914); (16946,16878); (16949,16943); (16950,16813); (16675,16617); (16666,16644); (16957,16616); (16956,16617);
(16961,16959); (16962,16674); (16965,16955); (16675,16631); (16666,16642); (16971,16630); (16970,16631); (16975,16973); (16976,16674); (16979,16969); (16675,16643); (16666,16643);
(16667,16642); (16987,16985); (16988,16674); (16991,16983); (16992,16980); (16993,16980); (16675,16659); (16664,16658); (16665,16659); (17003,17001); (17005,16674); (17007,16999);
(16674,16664); (16675,16665); (17013,17011); (17014,17008); (17016,16996); (17019,16995); (17021,16967); (17023,16952); (17025,16813); (16809,16675); (16805,16319); (16801,15981);
(16797,15625); (16793,15299); (16789,14967); (16785,14653); (16781,14309); (16777,14007); (16773,13699); (16769,13409); (16765,13101); (16761,12823); (16757,12483); (16753,12289);
(16749,12065); (16745,11883); (16741,11695); (11071,9232); (17065,9220); (17067,8481); (17069,8465); (17071,8471); (17070,8470); (17075,17073); (17077,301); (11501,11168);
(17081,11482); (17083,11180); (17085,8477); (17087,11174); (17086,11175); (17091,17089); (17092,11414); (11397,11168); (17097,11378); (17099,11180); (17101,8479); (17103,11174);
(17102,11175); (17107,17105); (17108,11415); (17111,17095); (17113,300); (17115,17079); (17117,11694); (17119,17063); (17121,11882); (17123,17061); (17125,12064); (17127,17059);
(17129,12288); (17131,17057); (17133,12482); (17135,17055); (17137,12822); (17139,17053); (17141,13100); (17143,17051); (17145,13408); (17147,17049); (17149,13698); (17151,17047);
(17153,14006); (17155,17045); (17157,14308); (17159,17043); (17161,14652); (17163,17041); (17165,14966); (17167,17039); (17169,15298); (17171,17037); (17173,15624); (17175,17035);
(17177,15980); (17179,17033); (17181,16318); (17183,17031); (17185,16674); (17187,17029); (17189,17024); (17191,17027); (17025,16831); (16939,16872); (17197,16872); (17198,16842);
(17201,16830); (17200,16831); (17205,17203); (17206,17024); (17209,17195); (17025,16843); (17199,16842); (17198,16843); (17217,17215); (17218,17024); (17221,17213); (17222,17211);
(17025,16859); (16938,16870); (17229,16858); (17228,16859); (17233,17231); (17234,17024); (17237,17227); (17025,16871); (16939,16870); (16938,16871); (17245,17243); (17246,17024);
(17249,17241); (17250,17239); (17253,17224); (17255,17224); (17252,17224); (17025,16893); (16934,16904); (17263,16892); (17262,16893); (17267,17265); (17268,17024); (17271,17261);
(17025,16905); (16935,16904); (16934,16905); (17279,17277); (17280,17024); (17283,17275); (17284,17273); (17025,16913); (17269,17024); (17291,17289); (17292,17284); (17025,16927);
(16933,16926); (16932,16927); (17301,17299); (17303,17024); (17305,17297); (17024,16932); (17025,16933); (17311,17309); (17313,17307); (17315,17294); (17317,17286); (17319,17258);
(17321,17256); (17312,17307); (17324,17294); (17326,17258); (17329,17323); (17330,17193); (17025,16967); (17016,16994); (17337,16966); (17336,16967); (17341,17339); (17342,17024);
(17345,17335); (17025,16981); (17016,16992); (17351,16980); (17350,16981); (17355,17353); (17356,17024); (17359,17349); (17025,16993); (17016,16993); (17017,16992); (17367,17365);
(17368,17024); (17371,17363); (17372,17360); (17373,17360); (17025,17009); (17014,17008); (17015,17009); (17383,17381); (17385,17024); (17387,17379); (17024,17014); (17025,17015);
(17393,17391); (17394,17388); (17396,17376); (17399,17375); (17401,17347); (17403,17332); (17405,17193); (17189,17025); (17185,16675); (17181,16319); (17177,15981); (17173,15625);
(17169,15299); (17165,14967); (17161,14653); (17157,14309); (17153,14007); (17149,13699); (17145,13409); (17141,13101); (17137,12823); (17133,12483); (17129,12289); (17125,12065);
(17121,11883); (17117,11695); (17067,8481); (17066,8480); (17449,17447); (17451,301); (17083,11181); (17082,11180); (17457,17455); (17458,11414); (17099,11181); (17098,11180);
(17465,17463); (17466,11415); (17469,17461); (17471,300); (17473,17453); (17475,11694); (17477,17445); (17479,11882); (17481,17443); (17483,12064); (17485,17441); (17487,12288);
(17489,17439); (17491,12482); (17493,17437); (17495,12822); (17497,17435); (17499,13100); (17501,17433); (17503,13408); (17505,17431); (17507,13698); (17509,17429); (17511,14006);
(17513,17427); (17515,14308); (17517,17425); (17519,14652); (17521,17423); (17523,14966); (17525,17421); (17527,15298); (17529,17419); (17531,15624); (17533,17417); (17535,15980);
(17537,17415); (17539,16318); (17541,17413); (17543,16674); (17545,17411); (17547,17024); (17549,17409); (17551,17404); (17553,17407); (17405,17211); (17319,17252); (17559,17252);
(17560,17222); (17563,17210); (17562,17211); (17567,17565); (17568,17404); (17571,17557); (17405,17223); (17561,17222); (17560,17223); (17579,17577); (17580,17404); (17583,17575);
(17584,17573); (17405,17239); (17318,17250); (17591,17238); (17590,17239); (17595,17593); (17596,17404); (17599,17589); (17405,17251); (17319,17250); (17318,17251); (17607,17605);
(17608,17404); (17611,17603); (17612,17601); (17615,17586); (17617,17586); (17614,17586); (17405,17273); (17314,17284); (17625,17272); (17624,17273); (17629,17627); (17630,17404);
(17633,17623); (17405,17285); (17315,17284); (17314,17285); (17641,17639); (17642,17404); (17645,17637); (17646,17635); (17405,17293); (17631,17404); (17653,17651); (17654,17646);
(17405,17307); (17313,17306); (17312,17307); (17663,17661); (17665,17404); (17667,17659); (17404,17312); (17405,17313); (17673,17671); (17675,17669); (17677,17656); (17679,17648);
(17681,17620); (17683,17618); (17674,17669); (17686,17656); (17688,17620); (17691,17685); (17692,17555); (17405,17347); (17396,17374); (17699,17346); (17698,17347); (17703,17701);
(17704,17404); (17707,17697); (17405,17361); (17396,17372); (17713,17360); (17712,17361); (17717,17715); (17718,17404); (17721,17711); (17405,17373); (17396,17373); (17397,17372);
(17729,17727); (17730,17404); (17733,17725); (17734,17722)].
Definition g22 : list (positive * positive) := [
(17735,17722); (17405,17389); (17394,17388); (17395,17389); (17745,17743); (17747,17404); (17749,17741); (17404,17394); (17405,17395); (17755,17753); (17756,17750); (17758,17738);
(17761,17737); (17763,17709); (17765,17694); (17767,17555); (17551,17405); (17547,17025); (17543,16675); (17539,16319); (17535,15981); (17531,15625); (17527,15299); (17523,14967);
(17519,14653); (17515,14309); (17511,14007); (17507,13699); (17503,13409); (17499,13101); (17495,12823); (17491,12483); (17487,12289); (17483,12065); (17479,11883); (17475,11695);
(11071,9231); (17811,9211); (17813,9217); (17812,9216); (17817,17815); (17819,301); (11501,11166); (17823,9227); (17825,11160); (17824,11161); (17829,17827); (17830,11414);
(11397,11166); (17835,9229); (17837,11160); (17836,11161); (17841,17839); (17842,11415); (17845,17833); (17847,300); (17849,17821); (17851,11694); (17853,17809); (17855,11882);
(17857,17807); (17859,12064); (17861,17805); (17863,12288); (17865,17803); (17867,12482); (17869,17801); (17871,12822); (17873,17799); (17875,13100); (17877,17797); (17879,13408);
(17881,17795); (17883,13698); (17885,17793); (17887,14006); (17889,17791); (17891,14308); (17893,17789); (17895,14652); (17897,17787); (17899,14966); (17901,17785); (17903,15298);
(17905,17783); (17907,15624); (17909,17781); (17911,15980); (17913,17779); (17915,16318); (17917,17777); (17919,16674); (17921,17775); (17923,17024); (17925,17773); (17927,17404);
(17929,17771); (17931,17766); (17933,17769); (17767,17573); (17681,17614); (17939,17614); (17940,17584); (17943,17572); (17942,17573); (17947,17945); (17948,17766); (17951,17937);
(17767,17585); (17941,17584); (17940,17585); (17959,17957); (17960,17766); (17963,17955); (17964,17953); (17767,17601); (17680,17612); (17971,17600); (17970,17601); (17975,17973);
(17976,17766); (17979,17969); (17767,17613); (17681,17612); (17680,17613); (17987,17985); (17988,17766); (17991,17983); (17992,17981); (17995,17966); (17997,17966); (17994,17966);
(17767,17635); (17676,17646); (18005,17634); (18004,17635); (18009,18007); (18010,17766); (18013,18003); (17767,17647); (17677,17646); (17676,17647); (18021,18019); (18022,17766);
(18025,18017); (18026,18015); (17767,17655); (18011,17766); (18033,18031); (18034,18026); (17767,17669); (17675,17668); (17674,17669); (18043,18041); (18045,17766); (18047,18039);
(17766,17674); (17767,17675); (18053,18051); (18055,18049); (18057,18036); (18059,18028); (18061,18000); (18063,17998); (18054,18049); (18066,18036); (18068,18000); (18071,18065);
(18072,17935); (17767,17709); (17758,17736); (18079,17708); (18078,17709); (18083,18081); (18084,17766); (18087,18077); (17767,17723); (17758,17734); (18093,17722); (18092,17723);
(18097,18095); (18098,17766); (18101,18091); (17767,17735); (17758,17735); (17759,17734); (18109,18107); (18110,17766); (18113,18105); (18114,18102); (18115,18102); (17767,17751);
(17756,17750); (17757,17751); (18125,18123); (18127,17766); (18129,18121); (17766,17756); (17767,17757); (18135,18133); (18136,18130); (18138,18118); (18141,18117); (18143,18089);
(18145,18074); (18147,17935); (17931,17767); (17927,17405); (17923,17025); (17919,16675); (17915,16319); (17911,15981); (17907,15625); (17903,15299); (17899,14967); (17895,14653);
(17891,14309); (17887,14007); (17883,13699); (17879,13409); (17875,13101); (17871,12823); (17867,12483); (17863,12289); (17859,12065); (17855,11883); (17851,11695); (11071,9231);
(11070,9230); (18195,18193); (18197,301); (11501,11167); (11500,11166); (18203,18201); (18204,11414); (11397,11167); (11396,11166); (18211,18209); (18212,11415); (18215,18207);
(18217,300); (18219,18199); (18221,11694); (18223,18191); (18225,11882); (18227,18189); (18229,12064); (18231,18187); (18233,12288); (18235,18185); (18237,12482); (18239,18183);
(18241,12822); (18243,18181); (18245,13100); (18247,18179); (18249,13408); (18251,18177); (18253,13698); (18255,18175); (18257,14006); (18259,18173); (18261,14308); (18263,18171);
(18265,14652); (18267,18169); (18269,14966); (18271,18167); (18273,15298); (18275,18165); (18277,15624); (18279,18163); (18281,15980); (18283,18161); (18285,16318); (18287,18159);
(18289,16674); (18291,18157); (18293,17024); (18295,18155); (18297,17404); (18299,18153); (18301,17766); (18303,18151); (18305,18146); (18307,18149); (18147,17953); (18061,17994);
(18313,17994); (18314,17964); (18317,17952); (18316,17953); (18321,18319); (18322,18146); (18325,18311); (18147,17965); (18315,17964); (18314,17965); (18333,18331); (18334,18146);
(18337,18329); (18338,18327); (18147,17981); (18060,17992); (18345,17980); (18344,17981); (18349,18347); (18350,18146); (18353,18343); (18147,17993); (18061,17992); (18060,17993);
(18361,18359); (18362,18146); (18365,18357); (18366,18355); (18369,18340); (18371,18340); (18368,18340); (18147,18015); (18056,18026); (18379,18014); (18378,18015); (18383,18381);
(18384,18146); (18387,18377); (18147,18027); (18057,18026); (18056,18027); (18395,18393); (18396,18146); (18399,18391); (18400,18389); (18147,18035); (18385,18146); (18407,18405);
(18408,18400); (18147,18049); (18055,18048); (18054,18049); (18417,18415); (18419,18146); (18421,18413); (18146,18054); (18147,18055); (18427,18425); (18429,18423); (18431,18410);
(18433,18402); (18435,18374); (18437,18372); (18428,18423); (18440,18410); (18442,18374); (18445,18439); (18446,18309); (18147,18089); (18138,18116); (18453,18088); (18452,18089);
(18457,18455); (18458,18146); (18461,18451); (18147,18103); (18138,18114); (18467,18102); (18466,18103); (18471,18469); (18472,18146); (18475,18465); (18147,18115); (18138,18115);
(18139,18114); (18483,18481); (18484,18146); (18487,18479); (18488,18476); (18489,18476); (18147,18131); (18136,18130); (18137,18131); (18499,18497); (18501,18146); (18503,18495);
(18146,18136); (18147,18137); (18509,18507); (18510,18504); (18512,18492); (18515,18491); (18517,18463); (18519,18448); (18521,18309); (18305,18147); (18301,17767); (18297,17405);
(18293,17025); (18289,16675); (18285,16319); (18281,15981)].
Definition g23 : list (positive * positive) := [
(18277,15625); (18273,15299); (18269,14967); (18265,14653); (18261,14309); (18257,14007); (18253,13699); (18249,13409); (18245,13101); (18241,12823); (18237,12483); (18233,12289);
(18229,12065); (18225,11883); (18221,11695); (11694,11581); (18569,18567); (18571,11882); (18573,18565); (18575,12064); (18577,18563); (18579,12288); (18581,18561); (18583,12482);
(18585,18559); (18587,12822); (18589,18557); (18591,13100); (18593,18555); (18595,13408); (18597,18553); (18599,13698); (18601,18551); (18603,14006); (18605,18549); (18607,14308);
(18609,18547); (18611,14652); (18613,18545); (18615,14966); (18617,18543); (18619,15298); (18621,18541); (18623,15624); (18625,18539); (18627,15980); (18629,18537); (18631,16318);
(18633,18535); (18635,16674); (18637,18533); (18639,17024); (18641,18531); (18643,17404); (18645,18529); (18647,17766); (18649,18527); (18651,18146); (18653,18525); (18655,18520);
(18657,18523); (18521,18327); (18435,18368); (18663,18368); (18664,18338); (18667,18326); (18666,18327); (18671,18669); (18672,18520); (18675,18661); (18521,18339); (18665,18338);
(18664,18339); (18683,18681); (18684,18520); (18687,18679); (18688,18677); (18521,18355); (18434,18366); (18695,18354); (18694,18355); (18699,18697); (18700,18520); (18703,18693);
(18521,18367); (18435,18366); (18434,18367); (18711,18709); (18712,18520); (18715,18707); (18716,18705); (18719,18690); (18721,18690); (18718,18690); (18521,18389); (18430,18400);
(18729,18388); (18728,18389); (18733,18731); (18734,18520); (18737,18727); (18521,18401); (18431,18400); (18430,18401); (18745,18743); (18746,18520); (18749,18741); (18750,18739);
(18521,18409); (18735,18520); (18757,18755); (18758,18750); (18521,18423); (18429,18422); (18428,18423); (18767,18765); (18769,18520); (18771,18763); (18520,18428); (18521,18429);
(18777,18775); (18779,18773); (18781,18760); (18783,18752); (18785,18724); (18787,18722); (18778,18773); (18790,18760); (18792,18724); (18795,18789); (18796,18659); (18521,18463);
(18512,18490); (18803,18462); (18802,18463); (18807,18805); (18808,18520); (18811,18801); (18521,18477); (18512,18488); (18817,18476); (18816,18477); (18821,18819); (18822,18520);
(18825,18815); (18521,18489); (18512,18489); (18513,18488); (18833,18831); (18834,18520); (18837,18829); (18838,18826); (18839,18826); (18521,18505); (18510,18504); (18511,18505);
(18849,18847); (18851,18520); (18853,18845); (18520,18510); (18521,18511); (18859,18857); (18860,18854); (18862,18842); (18865,18841); (18867,18813); (18869,18798); (18871,18659);
(18655,18521); (18651,18147); (18647,17767); (18643,17405); (18639,17025); (18635,16675); (18631,16319); (18627,15981); (18623,15625); (18619,15299); (18615,14967); (18611,14653);
(18607,14309); (18603,14007); (18599,13699); (18595,13409); (18591,13101); (18587,12823); (18583,12483); (18579,12289); (18575,12065); (18571,11883); (11695,11581); (11064,11059);
(11065,11058); (18923,18921); (18924,301); (11497,11196); (11496,11197); (18931,18929); (18932,11414); (11393,11196); (11392,11197); (18939,18937); (18940,11415); (18943,18935);
(18945,300); (18947,18927); (18949,11694); (18951,18919); (18953,11882); (18955,18917); (18957,12064); (18959,18915); (18961,12288); (18963,18913); (18965,12482); (18967,18911);
(18969,12822); (18971,18909); (18973,13100); (18975,18907); (18977,13408); (18979,18905); (18981,13698); (18983,18903); (18985,14006); (18987,18901); (18989,14308); (18991,18899);
(18993,14652); (18995,18897); (18997,14966); (18999,18895); (19001,15298); (19003,18893); (19005,15624); (19007,18891); (19009,15980); (19011,18889); (19013,16318); (19015,18887);
(19017,16674); (19019,18885); (19021,17024); (19023,18883); (19025,17404); (19027,18881); (19029,17766); (19031,18879); (19033,18146); (19035,18877); (19037,18520); (19039,18875);
(19041,18870); (19043,18873); (18871,18677); (18785,18718); (19049,18718); (19050,18688); (19053,18676); (19052,18677); (19057,19055); (19058,18870); (19061,19047); (18871,18689);
(19051,18688); (19050,18689); (19069,19067); (19070,18870); (19073,19065); (19074,19063); (18871,18705); (18784,18716); (19081,18704); (19080,18705); (19085,19083); (19086,18870);
(19089,19079); (18871,18717); (18785,18716); (18784,18717); (19097,19095); (19098,18870); (19101,19093); (19102,19091); (19105,19076); (19107,19076); (19104,19076); (18871,18739);
(18780,18750); (19115,18738); (19114,18739); (19119,19117); (19120,18870); (19123,19113); (18871,18751); (18781,18750); (18780,18751); (19131,19129); (19132,18870); (19135,19127);
(19136,19125); (18871,18759); (19121,18870); (19143,19141); (19144,19136); (18871,18773); (18779,18772); (18778,18773); (19153,19151); (19155,18870); (19157,19149); (18870,18778);
(18871,18779); (19163,19161); (19165,19159); (19167,19146); (19169,19138); (19171,19110); (19173,19108); (19164,19159); (19176,19146); (19178,19110); (19181,19175); (19182,19045);
(18871,18813); (18862,18840); (19189,18812); (19188,18813); (19193,19191); (19194,18870); (19197,19187); (18871,18827); (18862,18838); (19203,18826); (19202,18827); (19207,19205);
(19208,18870); (19211,19201); (18871,18839); (18862,18839); (18863,18838); (19219,19217); (19220,18870); (19223,19215); (19224,19212); (19225,19212); (18871,18855); (18860,18854);
(18861,18855); (19235,19233); (19237,18870); (19239,19231); (18870,18860); (18871,18861); (19245,19243); (19246,19240); (19248,19228); (19251,19227); (19253,19199); (19255,19184);
(19257,19045); (19041,18871); (19037,18521); (19033,18147); (19029,17767); (19025,17405); (19021,17025); (19017,16675); (19013,16319); (19009,15981); (19005,15625); (19001,15299);
(18997,14967); (18993,14653); (18989,14309); (18985,14007); (18981,13699); (18977,13409); (18973,13101); (18969,12823); (18965,12483); (18961,12289); (18957,12065); (18953,11883);
(18949,11695); (11052,10260); (11053,10261); (19311,19309); (19312,301); (11493,11205); (11492,11204); (19319,19317); (19320,11414); (11389,11205); (11388,11204); (19327,19325);
(19328,11415); (19331,19323); (19333,300); (19335,19315)].
Definition g24 : list (positive * positive) := [
(19337,11694); (19339,19307); (19341,11882); (19343,19305); (19345,12064); (19347,19303); (19349,12288); (19351,19301); (19353,12482); (19355,19299); (19357,12822); (19359,19297);
(19361,13100); (19363,19295); (19365,13408); (19367,19293); (19369,13698); (19371,19291); (19373,14006); (19375,19289); (19377,14308); (19379,19287); (19381,14652); (19383,19285);
(19385,14966); (19387,19283); (19389,15298); (19391,19281); (19393,15624); (19395,19279); (19397,15980); (19399,19277); (19401,16318); (19403,19275); (19405,16674); (19407,19273);
(19409,17024); (19411,19271); (19413,17404); (19415,19269); (19417,17766); (19419,19267); (19421,18146); (19423,19265); (19425,18520); (19427,19263); (19429,18870); (19431,19261);
(19433,19256); (19435,19259); (19257,19063); (19171,19104); (19441,19104); (19442,19074); (19445,19062); (19444,19063); (19449,19447); (19450,19256); (19453,19439); (19257,19075);
(19443,19074); (19442,19075); (19461,19459); (19462,19256); (19465,19457); (19466,19455); (19257,19091); (19170,19102); (19473,19090); (19472,19091); (19477,19475); (19478,19256);
(19481,19471); (19257,19103); (19171,19102); (19170,19103); (19489,19487); (19490,19256); (19493,19485); (19494,19483); (19497,19468); (19499,19468); (19496,19468); (19257,19125);
(19166,19136); (19507,19124); (19506,19125); (19511,19509); (19512,19256); (19515,19505); (19257,19137); (19167,19136); (19166,19137); (19523,19521); (19524,19256); (19527,19519);
(19528,19517); (19257,19145); (19513,19256); (19535,19533); (19536,19528); (19257,19159); (19165,19158); (19164,19159); (19545,19543); (19547,19256); (19549,19541); (19256,19164);
(19257,19165); (19555,19553); (19557,19551); (19559,19538); (19561,19530); (19563,19502); (19565,19500); (19556,19551); (19568,19538); (19570,19502); (19573,19567); (19574,19437);
(19257,19199); (19248,19226); (19581,19198); (19580,19199); (19585,19583); (19586,19256); (19589,19579); (19257,19213); (19248,19224); (19595,19212); (19594,19213); (19599,19597);
(19600,19256); (19603,19593); (19257,19225); (19248,19225); (19249,19224); (19611,19609); (19612,19256); (19615,19607); (19616,19604); (19617,19604); (19257,19241); (19246,19240);
(19247,19241); (19627,19625); (19629,19256); (19631,19623); (19256,19246); (19257,19247); (19637,19635); (19638,19632); (19640,19620); (19643,19619); (19645,19591); (19647,19576);
(19649,19437); (19433,19257); (19429,18871); (19425,18521); (19421,18147); (19417,17767); (19413,17405); (19409,17025); (19405,16675); (19401,16319); (19397,15981); (19393,15625);
(19389,15299); (19385,14967); (19381,14653); (19377,14309); (19373,14007); (19369,13699); (19365,13409); (19361,13101); (19357,12823); (19353,12483); (19349,12289); (19345,12065);
(19341,11883); (19337,11695); (11050,10654); (11051,10655); (19705,19703); (19707,11694); (19709,19701); (19711,11882); (19713,19699); (19715,12064); (19717,19697); (19719,12288);
(19721,19695); (19723,12482); (19725,19693); (19727,12822); (19729,19691); (19731,13100); (19733,19689); (19735,13408); (19737,19687); (19739,13698); (19741,19685); (19743,14006);
(19745,19683); (19747,14308); (19749,19681); (19751,14652); (19753,19679); (19755,14966); (19757,19677); (19759,15298); (19761,19675); (19763,15624); (19765,19673); (19767,15980);
(19769,19671); (19771,16318); (19773,19669); (19775,16674); (19777,19667); (19779,17024); (19781,19665); (19783,17404); (19785,19663); (19787,17766); (19789,19661); (19791,18146);
(19793,19659); (19795,18520); (19797,19657); (19799,18870); (19801,19655); (19803,19256); (19805,19653); (19807,19648); (19809,19651); (19649,19455); (19563,19496); (19815,19496);
(19816,19466); (19819,19454); (19818,19455); (19823,19821); (19824,19648); (19827,19813); (19649,19467); (19817,19466); (19816,19467); (19835,19833); (19836,19648); (19839,19831);
(19840,19829); (19649,19483); (19562,19494); (19847,19482); (19846,19483); (19851,19849); (19852,19648); (19855,19845); (19649,19495); (19563,19494); (19562,19495); (19863,19861);
(19864,19648); (19867,19859); (19868,19857); (19871,19842); (19873,19842); (19868,19857); (19876,19842); (19649,19517); (19558,19528); (19883,19516); (19882,19517); (19887,19885);
(19888,19648); (19891,19881); (19649,19529); (19559,19528); (19558,19529); (19899,19897); (19900,19648); (19903,19895); (19904,19893); (19904,19893); (19649,19551); (19557,19550);
(19556,19551); (19915,19913); (19917,19648); (19919,19911); (19648,19556); (19649,19557); (19925,19923); (19927,19921); (19929,19908); (19931,19906); (19933,19878); (19935,19874);
(19926,19921); (19938,19908); (19940,19878); (19943,19937); (19944,19811); (19649,19591); (19640,19618); (19951,19590); (19950,19591); (19955,19953); (19956,19648); (19959,19949);
(19649,19616); (19640,19617); (19641,19616); (19967,19965); (19969,19648); (19971,19963); (19649,19604); (19640,19616); (19977,19604); (19976,19605); (19981,19979); (19983,19648);
(19985,19975); (19987,19973); (19987,19972); (19649,19633); (19638,19632); (19639,19633); (19997,19995); (19999,19648); (20001,19993); (19648,19638); (19649,19639); (20007,20005);
(20008,20002); (20010,19990); (20013,19989); (20015,19961); (20017,19946); (19715,12065); (19711,11883); (19706,11695); (20025,11882); (20027,20023); (20029,12064); (20031,20021);
(20033,12289); (20029,12065); (20024,11883); (20039,12064); (20041,20037); (20043,12288); (20045,20035); (20047,12483); (20043,12289); (20038,12065); (20053,12288); (20055,20051);
(20057,12482); (20059,20049); (20061,12823); (20057,12483); (20052,12289); (20067,12482); (20069,20065); (20071,12822); (20073,20063); (20075,13101); (20071,12823); (20066,12483);
(20081,12822); (20083,20079); (20085,13100); (20087,20077); (20089,13409); (20085,13101); (20080,12823); (20095,13100); (20097,20093); (20099,13408); (20101,20091); (20103,13699);
(20099,13409); (20094,13101); (20109,13408); (20111,20107); (20113,13698); (20115,20105); (20117,14007); (20113,13699); (20108,13409); (20123,13698); (20125,20121); (20127,14006);
(20129,20119); (20131,14309); (20127,14007); (20122,13699)].
Definition g25 : list (positive * positive) := [
(20137,14006); (20139,20135); (20141,14308); (20143,20133); (20145,14653); (20141,14309); (20136,14007); (20151,14308); (20153,20149); (20155,14652); (20157,20147); (20159,14967);
(20155,14653); (20150,14309); (20165,14652); (20167,20163); (20169,14966); (20171,20161); (20173,15299); (20169,14967); (20164,14653); (20179,14966); (20181,20177); (20183,15298);
(20185,20175); (20187,15625); (20183,15299); (20178,14967); (20193,15298); (20195,20191); (20197,15624); (20199,20189); (20201,15981); (20197,15625); (20192,15299); (20207,15624);
(20209,20205); (20211,15980); (20213,20203); (20215,16319); (20211,15981); (20206,15625); (20221,15980); (20223,20219); (20225,16318); (20227,20217); (20229,16675); (20225,16319);
(20220,15981); (20235,16318); (20237,20233); (20239,16674); (20241,20231); (20243,17025); (20239,16675); (20234,16319); (20249,16674); (20251,20247); (20253,17024); (20255,20245);
(20257,17405); (20253,17025); (20248,16675); (20263,17024); (20265,20261); (20267,17404); (20269,20259); (20271,17767); (20267,17405); (20262,17025); (20277,17404); (20279,20275);
(20281,17766); (20283,20273); (20285,18147); (20281,17767); (20276,17405); (20291,17766); (20293,20289); (20295,18146); (20297,20287); (20299,18521); (20295,18147); (20290,17767);
(20305,18146); (20307,20303); (20309,18520); (20311,20301); (20313,18871); (20309,18521); (20304,18147); (20319,18520); (20321,20317); (20323,18870); (20325,20315); (20327,19257);
(20323,18871); (20318,18521); (20333,18870); (20335,20331); (20337,19256); (20339,20329); (20341,19649); (20337,19257); (20332,18871); (20347,19256); (20349,20345); (20351,19648);
(20353,20343); (20355,20019); (20351,19649); (20346,19257); (20361,19648); (20363,20359); (20365,20018); (20367,20357); (20369,11538); (20371,11583); (135,133); (20374,136);
(20376,20372); (11414,131); (11415,67); (20383,20381); (134,132); (20386,137); (20389,20384); (20388,20385); (20393,20391); (18948,11539); (20364,20019); (20360,19649);
(20400,20018); (20403,20399); (20405,11538); (20407,20397); (20408,20373); (19707,19337); (20412,18949); (20415,11539); (20400,20019); (20418,11538); (20421,20417); (20422,20410);
(20425,20395); (137,134); (20428,20426); (20431,20379); (18221,11539); (19719,12289); (20033,12288); (20439,20437); (20441,12483); (20047,12482); (20445,20443); (20447,12823);
(20061,12822); (20451,20449); (20453,13101); (20075,13100); (20457,20455); (20459,13409); (20089,13408); (20463,20461); (20465,13699); (20103,13698); (20469,20467); (20471,14007);
(20117,14006); (20475,20473); (20477,14309); (20131,14308); (20481,20479); (20483,14653); (20145,14652); (20487,20485); (20489,14967); (20159,14966); (20493,20491); (20495,15299);
(20173,15298); (20499,20497); (20501,15625); (20187,15624); (20505,20503); (20507,15981); (20201,15980); (20511,20509); (20513,16319); (20215,16318); (20517,20515); (20519,16675);
(20229,16674); (20523,20521); (20525,17025); (20243,17024); (20529,20527); (20531,17405); (20257,17404); (20535,20533); (20537,17767); (20271,17766); (20541,20539); (20543,18147);
(20285,18146); (20547,20545); (20549,18521); (20299,18520); (20553,20551); (20555,18871); (20313,18870); (20559,20557); (20561,19257); (20327,19256); (20565,20563); (20567,19649);
(20341,19648); (20571,20569); (20573,20019); (20355,20018); (20577,20575); (20579,11538); (20581,20435); (20422,20408); (20584,20583); (20587,20372); (20374,137); (20590,20588);
(20593,20432); (136,134); (135,132); (20599,20597); (20600,20595); (11666,11539); (20018,19927); (20019,19926); (20609,20607); (20610,11538); (20613,20605); (20615,20603);
(11694,11612); (20619,11883); (11882,11743); (20623,20621); (20625,12065); (12064,11925); (20629,20627); (20631,12289); (12288,12149); (20635,20633); (20637,12483); (12482,12343);
(20641,20639); (20643,12823); (12822,12555); (20647,20645); (20649,13101); (13100,12889); (20653,20651); (20655,13409); (13408,13197); (20659,20657); (20661,13699); (13698,13487);
(20665,20663); (20667,14007); (14006,13795); (20671,20669); (20673,14309); (14308,14097); (20677,20675); (20679,14653); (14652,14441); (20683,20681); (20685,14967); (14966,14755);
(20689,20687); (20691,15299); (15298,15087); (20695,20693); (20697,15625); (15624,15413); (20701,20699); (20703,15981); (15980,15769); (20707,20705); (20709,16319); (16318,16107);
(20713,20711); (20715,16675); (16674,16463); (20719,20717); (20721,17025); (17024,16813); (20725,20723); (20727,17405); (17404,17193); (20731,20729); (20733,17767); (17766,17555);
(20737,20735); (20739,18147); (18146,17935); (20743,20741); (20745,18521); (18520,18309); (20749,20747); (20751,18871); (18870,18659); (20755,20753); (20757,19257); (19256,19045);
(20761,20759); (20763,19649); (19648,19437); (20767,20765); (20769,20019); (20018,19811); (20773,20771); (20774,11538); (11612,11539); (19807,19649); (19803,19257); (19799,18871);
(19795,18521); (19791,18147); (19787,17767); (19783,17405); (19779,17025); (19775,16675); (19771,16319); (19767,15981); (19763,15625); (19759,15299); (19755,14967); (19751,14653);
(19747,14309); (19743,14007); (19739,13699); (19735,13409); (19731,13101); (19727,12823); (19723,12483); (20441,12482); (20825,20823); (20827,12822); (20829,20821); (20831,13100);
(20833,20819); (20835,13408); (20837,20817); (20839,13698); (20841,20815); (20843,14006); (20845,20813); (20847,14308); (20849,20811); (20851,14652); (20853,20809); (20855,14966);
(20857,20807); (20859,15298); (20861,20805); (20863,15624); (20865,20803); (20867,15980); (20869,20801); (20871,16318); (20873,20799); (20875,16674); (20877,20797); (20879,17024);
(20881,20795); (20883,17404); (20885,20793); (20887,17766); (20889,20791); (20891,18146); (20893,20789); (20895,18520); (20897,20787); (20899,18870); (20901,20785); (20903,19256);
(20905,20783); (20907,19648); (20909,20781); (20910,20019); (20907,19649); (20903,19257); (20899,18871); (20895,18521); (20891,18147); (20887,17767); (20883,17405); (20879,17025);
(20875,16675); (20871,16319); (20867,15981); (20863,15625)].
Definition g26 : list (positive * positive) := [
(20859,15299); (20855,14967); (20851,14653); (20847,14309); (20843,14007); (20839,13699); (20835,13409); (20831,13101); (20827,12823); (20447,12822); (20957,20955); (20959,13100);
(20961,20953); (20963,13408); (20965,20951); (20967,13698); (20969,20949); (20971,14006); (20973,20947); (20975,14308); (20977,20945); (20979,14652); (20981,20943); (20983,14966);
(20985,20941); (20987,15298); (20989,20939); (20991,15624); (20993,20937); (20995,15980); (20997,20935); (20999,16318); (21001,20933); (21003,16674); (21005,20931); (21007,17024);
(21009,20929); (21011,17404); (21013,20927); (21015,17766); (21017,20925); (21019,18146); (21021,20923); (21023,18520); (21025,20921); (21027,18870); (21029,20919); (21031,19256);
(21033,20917); (21035,19648); (21037,20915); (21038,20018); (21041,20913); (21043,11538); (21045,20779); (20019,19811); (20911,20018); (21051,21049); (21053,11538); (21055,21047);
(11738,11539); (21038,20019); (21035,19649); (21031,19257); (21027,18871); (21023,18521); (21019,18147); (21015,17767); (21011,17405); (21007,17025); (21003,16675); (20999,16319);
(20995,15981); (20991,15625); (20987,15299); (20983,14967); (20979,14653); (20975,14309); (20971,14007); (20967,13699); (20963,13409); (20959,13101); (20453,13100); (21103,21101);
(21105,13408); (21107,21099); (21109,13698); (21111,21097); (21113,14006); (21115,21095); (21117,14308); (21119,21093); (21121,14652); (21123,21091); (21125,14966); (21127,21089);
(21129,15298); (21131,21087); (21133,15624); (21135,21085); (21137,15980); (21139,21083); (21141,16318); (21143,21081); (21145,16674); (21147,21079); (21149,17024); (21151,21077);
(21153,17404); (21155,21075); (21157,17766); (21159,21073); (21161,18146); (21163,21071); (21165,18520); (21167,21069); (21169,18870); (21171,21067); (21173,19256); (21175,21065);
(21177,19648); (21179,21063); (21180,20018); (21183,21061); (21185,11538); (21187,21059); (11917,11539); (21181,20019); (21177,19649); (21173,19257); (21169,18871); (21165,18521);
(21161,18147); (21157,17767); (21153,17405); (21149,17025); (21145,16675); (21141,16319); (21137,15981); (21133,15625); (21129,15299); (21125,14967); (21121,14653); (21117,14309);
(21113,14007); (21109,13699); (21105,13409); (20459,13408); (21233,21231); (21235,13698); (21237,21229); (21239,14006); (21241,21227); (21243,14308); (21245,21225); (21247,14652);
(21249,21223); (21251,14966); (21253,21221); (21255,15298); (21257,21219); (21259,15624); (21261,21217); (21263,15980); (21265,21215); (21267,16318); (21269,21213); (21271,16674);
(21273,21211); (21275,17024); (21277,21209); (21279,17404); (21281,21207); (21283,17766); (21285,21205); (21287,18146); (21289,21203); (21291,18520); (21293,21201); (21295,18870);
(21297,21199); (21299,19256); (21301,21197); (21303,19648); (21305,21195); (21307,20018); (21309,21193); (21311,11538); (21313,21191); (21314,21189); (21316,21056); (12136,11539);
(21306,20019); (21303,19649); (21299,19257); (21295,18871); (21291,18521); (21287,18147); (21283,17767); (21279,17405); (21275,17025); (21271,16675); (21267,16319); (21263,15981);
(21259,15625); (21255,15299); (21251,14967); (21247,14653); (21243,14309); (21239,14007); (21235,13699); (20465,13698); (21361,21359); (21363,14006); (21365,21357); (21367,14308);
(21369,21355); (21371,14652); (21373,21353); (21375,14966); (21377,21351); (21379,15298); (21381,21349); (21383,15624); (21385,21347); (21387,15980); (21389,21345); (21391,16318);
(21393,21343); (21395,16674); (21397,21341); (21399,17024); (21401,21339); (21403,17404); (21405,21337); (21407,17766); (21409,21335); (21411,18146); (21413,21333); (21415,18520);
(21417,21331); (21419,18870); (21421,21329); (21423,19256); (21425,21327); (21427,19648); (21429,21325); (21430,20018); (21433,21323); (21435,11538); (21437,21321); (12327,11539);
(21431,20019); (21427,19649); (21423,19257); (21419,18871); (21415,18521); (21411,18147); (21407,17767); (21403,17405); (21399,17025); (21395,16675); (21391,16319); (21387,15981);
(21383,15625); (21379,15299); (21375,14967); (21371,14653); (21367,14309); (21363,14007); (20471,14006); (21479,21477); (21481,14308); (21483,21475); (21485,14652); (21487,21473);
(21489,14966); (21491,21471); (21493,15298); (21495,21469); (21497,15624); (21499,21467); (21501,15980); (21503,21465); (21505,16318); (21507,21463); (21509,16674); (21511,21461);
(21513,17024); (21515,21459); (21517,17404); (21519,21457); (21521,17766); (21523,21455); (21525,18146); (21527,21453); (21529,18520); (21531,21451); (21533,18870); (21535,21449);
(21537,19256); (21539,21447); (21541,19648); (21543,21445); (21545,20018); (21547,21443); (21549,11538); (21551,21441); (21552,21439); (12534,11539); (21544,20019); (21541,19649);
(21537,19257); (21533,18871); (21529,18521); (21525,18147); (21521,17767); (21517,17405); (21513,17025); (21509,16675); (21505,16319); (21501,15981); (21497,15625); (21493,15299);
(21489,14967); (21485,14653); (21481,14309); (20477,14308); (21593,21591); (21595,14652); (21597,21589); (21599,14966); (21601,21587); (21603,15298); (21605,21585); (21607,15624);
(21609,21583); (21611,15980); (21613,21581); (21615,16318); (21617,21579); (21619,16674); (21621,21577); (21623,17024); (21625,21575); (21627,17404); (21629,21573); (21631,17766);
(21633,21571); (21635,18146); (21637,21569); (21639,18520); (21641,21567); (21643,18870); (21645,21565); (21647,19256); (21649,21563); (21651,19648); (21653,21561); (21654,20018);
(21657,21559); (21659,11538); (21661,21557); (12865,11539); (21655,20019); (21651,19649); (21647,19257); (21643,18871); (21639,18521); (21635,18147); (21631,17767); (21627,17405);
(21623,17025); (21619,16675); (21615,16319); (21611,15981); (21607,15625); (21603,15299); (21599,14967); (21595,14653); (20483,14652); (21699,21697); (21701,14966); (21703,21695);
(21705,15298); (21707,21693); (21709,15624); (21711,21691); (21713,15980); (21715,21689); (21717,16318); (21719,21687); (21721,16674); (21723,21685); (21725,17024); (21727,21683);
(21729,17404); (21731,21681); (21733,17766); (21735,21679)].
Definition g27 : list (positive * positive) := [
(21737,18146); (21739,21677); (21741,18520); (21743,21675); (21745,18870); (21747,21673); (21749,19256); (21751,21671); (21753,19648); (21755,21669); (21757,20018); (21759,21667);
(21761,11538); (21763,21665); (21764,21663); (21766,21554); (21768,21318); (13168,11539); (21756,20019); (21753,19649); (21749,19257); (21745,18871); (21741,18521); (21737,18147);
(21733,17767); (21729,17405); (21725,17025); (21721,16675); (21717,16319); (21713,15981); (21709,15625); (21705,15299); (21701,14967); (20489,14966); (21805,21803); (21807,15298);
(21809,21801); (21811,15624); (21813,21799); (21815,15980); (21817,21797); (21819,16318); (21821,21795); (21823,16674); (21825,21793); (21827,17024); (21829,21791); (21831,17404);
(21833,21789); (21835,17766); (21837,21787); (21839,18146); (21841,21785); (21843,18520); (21845,21783); (21847,18870); (21849,21781); (21851,19256); (21853,21779); (21855,19648);
(21857,21777); (21858,20018); (21861,21775); (21863,11538); (21865,21773); (13455,11539); (21859,20019); (21855,19649); (21851,19257); (21847,18871); (21843,18521); (21839,18147);
(21835,17767); (21831,17405); (21827,17025); (21823,16675); (21819,16319); (21815,15981); (21811,15625); (21807,15299); (20495,15298); (21899,21897); (21901,15624); (21903,21895);
(21905,15980); (21907,21893); (21909,16318); (21911,21891); (21913,16674); (21915,21889); (21917,17024); (21919,21887); (21921,17404); (21923,21885); (21925,17766); (21927,21883);
(21929,18146); (21931,21881); (21933,18520); (21935,21879); (21937,18870); (21939,21877); (21941,19256); (21943,21875); (21945,19648); (21947,21873); (21949,20018); (21951,21871);
(21953,11538); (21955,21869); (21956,21867); (13758,11539); (21948,20019); (21945,19649); (21941,19257); (21937,18871); (21933,18521); (21929,18147); (21925,17767); (21921,17405);
(21917,17025); (21913,16675); (21909,16319); (21905,15981); (21901,15625); (20501,15624); (21989,21987); (21991,15980); (21993,21985); (21995,16318); (21997,21983); (21999,16674);
(22001,21981); (22003,17024); (22005,21979); (22007,17404); (22009,21977); (22011,17766); (22013,21975); (22015,18146); (22017,21973); (22019,18520); (22021,21971); (22023,18870);
(22025,21969); (22027,19256); (22029,21967); (22031,19648); (22033,21965); (22034,20018); (22037,21963); (22039,11538); (22041,21961); (14057,11539); (22035,20019); (22031,19649);
(22027,19257); (22023,18871); (22019,18521); (22015,18147); (22011,17767); (22007,17405); (22003,17025); (21999,16675); (21995,16319); (21991,15981); (20507,15980); (22071,22069);
(22073,16318); (22075,22067); (22077,16674); (22079,22065); (22081,17024); (22083,22063); (22085,17404); (22087,22061); (22089,17766); (22091,22059); (22093,18146); (22095,22057);
(22097,18520); (22099,22055); (22101,18870); (22103,22053); (22105,19256); (22107,22051); (22109,19648); (22111,22049); (22113,20018); (22115,22047); (22117,11538); (22119,22045);
(22120,22043); (22122,21958); (14397,11539); (22113,20019); (22109,19649); (22105,19257); (22101,18871); (22097,18521); (22093,18147); (22089,17767); (22085,17405); (22081,17025);
(22077,16675); (22073,16319); (20513,16318); (22151,22149); (22153,16674); (22155,22147); (22157,17024); (22159,22145); (22161,17404); (22163,22143); (22165,17766); (22167,22141);
(22169,18146); (22171,22139); (22173,18520); (22175,22137); (22177,18870); (22179,22135); (22181,19256); (22183,22133); (22185,19648); (22187,22131); (22189,20018); (22191,22129);
(22193,11538); (22195,22127); (14707,11539); (22189,20019); (22185,19649); (22181,19257); (22177,18871); (22173,18521); (22169,18147); (22165,17767); (22161,17405); (22157,17025);
(22153,16675); (20519,16674); (22221,22219); (22223,17024); (22225,22217); (22227,17404); (22229,22215); (22231,17766); (22233,22213); (22235,18146); (22237,22211); (22239,18520);
(22241,22209); (22243,18870); (22245,22207); (22247,19256); (22249,22205); (22251,19648); (22253,22203); (22255,20018); (22257,22201); (22259,11538); (22261,22199); (22262,22196);
(15035,11539); (22255,20019); (22251,19649); (22247,19257); (22243,18871); (22239,18521); (22235,18147); (22231,17767); (22227,17405); (22223,17025); (20525,17024); (22287,22285);
(22289,17404); (22291,22283); (22293,17766); (22295,22281); (22297,18146); (22299,22279); (22301,18520); (22303,22277); (22305,18870); (22307,22275); (22309,19256); (22311,22273);
(22313,19648); (22315,22271); (22317,20018); (22319,22269); (22321,11538); (22323,22267); (15357,11539); (22317,20019); (22313,19649); (22309,19257); (22305,18871); (22301,18521);
(22297,18147); (22293,17767); (22289,17405); (20531,17404); (22345,22343); (22347,17766); (22349,22341); (22351,18146); (22353,22339); (22355,18520); (22357,22337); (22359,18870);
(22361,22335); (22363,19256); (22365,22333); (22367,19648); (22369,22331); (22371,20018); (22373,22329); (22375,11538); (22377,22327); (22378,22324); (22380,22264); (22382,22124);
(15709,11539); (22371,20019); (22367,19649); (22363,19257); (22359,18871); (22355,18521); (22351,18147); (22347,17767); (20537,17766); (22403,22401); (22405,18146); (22407,22399);
(22409,18520); (22411,22397); (22413,18870); (22415,22395); (22417,19256); (22419,22393); (22421,19648); (22423,22391); (22425,20018); (22427,22389); (22429,11538); (22431,22387);
(16043,11539); (22425,20019); (22421,19649); (22417,19257); (22413,18871); (22409,18521); (22405,18147); (20543,18146); (22449,22447); (22451,18520); (22453,22445); (22455,18870);
(22457,22443); (22459,19256); (22461,22441); (22463,19648); (22465,22439); (22467,20018); (22469,22437); (22471,11538); (22473,22435); (22474,22432); (16395,11539); (22467,20019);
(22463,19649); (22459,19257); (22455,18871); (22451,18521); (20549,18520); (22491,22489); (22493,18870); (22495,22487); (22497,19256); (22499,22485); (22501,19648); (22503,22483);
(22505,20018); (22507,22481); (22509,11538); (22511,22479); (16741,11539); (22505,20019); (22501,19649); (22497,19257); (22493,18871); (20555,18870); (22525,22523); (22527,19256);
(22529,22521); (22531,19648); (22533,22519); (22535,20018)].
Definition g28 : list (positive * positive) := [
(22537,22517); (22539,11538); (22541,22515); (22542,22512); (22544,22476); (17117,11539); (22535,20019); (22531,19649); (22527,19257); (20561,19256); (22557,22555); (22559,19648);
(22561,22553); (22563,20018); (22565,22551); (22567,11538); (22569,22549); (17475,11539); (22563,20019); (22559,19649); (20567,19648); (22579,22577); (22581,20018); (22583,22575);
(22585,11538); (22587,22573); (22588,22570); (17851,11539); (22581,20019); (20573,20018); (22597,22595); (22599,11538); (22601,22593); (22602,20582); (22604,22590); (22606,22546);
(22608,22384); (22610,21770); (22613,20776); (22612,20777); (22617,22615); (22619,20614); (22618,20615); (22623,22621); (22625,20602); (22627,20617); (11674,11666); (11675,11667);
(22633,22631); (22634,11539); (20019,19920); (19927,19920); (19926,19921); (22643,22641); (22644,20018); (22647,22639); (22649,11538); (22651,22637); (22652,20603); (22652,22618);
(22652,20614); (22653,20615); (22661,22659); (22662,22619); (22665,22657); (22667,20602); (22669,22655); (22671,22629); (11674,11666); (22675,11652); (22674,11653); (22679,22677);
(22681,11539); (20019,19905); (19929,19905); (19928,19904); (22689,22687); (22691,20018); (22693,22685); (22695,11538); (22697,22683); (22698,20603); (22698,22618); (22653,20614);
(22705,22699); (22704,22698); (22709,22707); (22710,22619); (22713,22703); (22715,20602); (22717,22701); (22674,11652); (22721,11658); (22720,11659); (22725,22723); (22726,11539);
(20019,19893); (19928,19904); (22733,19892); (22732,19893); (22737,22735); (22738,20018); (22741,22731); (22743,11538); (22745,22729); (22747,20603); (22747,22618); (22704,22699);
(22753,22746); (22752,22747); (22757,22755); (22758,22619); (22761,22751); (22763,20602); (22765,22749); (22767,22719); (22768,22672); (11658,11652); (22772,22674); (22774,11633);
(22775,11632); (22779,22777); (22780,11539); (20019,19868); (19933,19868); (19932,19869); (22789,22787); (22791,20018); (22793,22785); (22795,11538); (22797,22783); (22799,20603);
(22799,22618); (22746,22699); (22804,22704); (22806,22799); (22807,22798); (22811,22809); (22812,22619); (22815,22803); (22817,20602); (22819,22801); (22774,11632); (22823,11638);
(22822,11639); (22827,22825); (22828,11539); (20019,19857); (19932,19868); (22835,19856); (22834,19857); (22839,22837); (22840,20018); (22843,22833); (22845,11538); (22847,22831);
(22849,20603); (22849,22618); (22806,22798); (22855,22848); (22854,22849); (22859,22857); (22860,22619); (22863,22853); (22865,20602); (22867,22851); (22869,22821); (11638,11632);
(22872,22774); (22875,11625); (22874,11624); (22879,22877); (22881,11539); (20019,19841); (19933,19876); (22887,19870); (22889,19840); (22888,19841); (22893,22891); (22894,20018);
(22897,22885); (22899,11538); (22901,22883); (22902,20603); (22902,22618); (22848,22798); (22908,22806); (22911,22903); (22910,22902); (22915,22913); (22916,22619); (22919,22907);
(22921,20602); (22923,22905); (22874,11625); (22927,11618); (22926,11619); (22931,22929); (22932,11539); (20019,19829); (22888,19840); (22939,19828); (22938,19829); (22943,22941);
(22944,20018); (22947,22937); (22949,11538); (22951,22935); (22953,20603); (22953,22618); (22910,22903); (22959,22952); (22958,22953); (22963,22961); (22964,22619); (22967,22957);
(22969,20602); (22971,22955); (22973,22925); (22974,22870); (22976,22770); (22671,22628); (22980,22768); (22982,22976); (21055,20603); (22610,21768); (22988,21316); (22990,21047);
(22993,21054); (22992,21055); (22997,22995); (22999,22618); (23001,20602); (23003,22987); (23004,22984); (23007,22979); (20603,20582); (22618,20583); (22602,20582); (22603,20583);
(23017,23015); (23018,22619); (23021,23013); (23023,20602); (23025,23011); (23027,23009); (22972,22924); (22868,22820); (23032,23030); (22766,22718); (22670,22628); (23038,23036);
(23040,23034); (20388,20384); (23045,20600); (134,133); (23048,137); (23050,20385); (23053,23046); (20600,20389); (23056,23051); (23059,23055); (23060,23042); (23043,23027);
(23065,23063); (23067,23008); (23069,23029); (22603,20603); (23019,22618); (22604,22588); (22605,22589); (23079,23077); (23081,22619); (23083,23075); (23085,20602); (23087,23073);
(23089,23026); (22571,20603); (22604,22588); (23095,22570); (23094,22571); (23099,23097); (23100,22618); (22606,22542); (22607,22543); (23107,23105); (23109,22619); (23111,23103);
(23113,20602); (23115,23093); (22589,20603); (23081,22618); (23100,22619); (23123,23121); (23125,20602); (23127,23119); (23129,23117); (23130,23090); (22513,20603); (22606,22542);
(23137,22512); (23136,22513); (23141,23139); (23142,22618); (22606,22544); (23147,22474); (23146,22475); (23151,23149); (23152,22619); (23155,23145); (23157,20602); (23159,23135);
(22543,20603); (23109,22618); (23142,22619); (23167,23165); (23169,20602); (23171,23163); (23173,23161); (22433,20603); (23146,22474); (23179,22432); (23178,22433); (23183,23181);
(23184,22618); (22608,22378); (22609,22379); (23191,23189); (23193,22619); (23195,23187); (23197,20602); (23199,23177); (22475,20603); (23152,22618); (23184,22619); (23207,23205);
(23209,20602); (23211,23203); (23213,23201); (23214,23174); (23216,23132); (22325,20603); (22608,22378); (23223,22324); (23222,22325); (23227,23225); (23228,22618); (22608,22380);
(23233,22262); (23232,22263); (23237,23235); (23238,22619); (23241,23231); (23243,20602); (23245,23221); (22379,20603); (23193,22618); (23228,22619); (23253,23251); (23255,20602);
(23257,23249); (23259,23247); (22197,20603); (23232,22262); (23265,22196); (23264,22197); (23269,23267); (23270,22618); (22608,22382); (23274,22120); (23275,22121); (23279,23277);
(23281,22619); (23283,23273); (23285,20602); (23287,23263); (22263,20603); (23238,22618); (23270,22619); (23295,23293); (23297,20602); (23299,23291); (23301,23289); (23302,23260);
(22042,20603); (23274,22120); (23309,22042); (23308,22043); (23313,23311); (23315,22618); (23274,22122); (23319,21956); (23318,21957); (23323,23321); (23324,22619); (23327,23317);
(23329,20602); (23331,23307); (22121,20603); (23281,22618)].
Definition g29 : list (positive * positive) := [
(23315,22619); (23339,23337); (23341,20602); (23343,23335); (23345,23333); (21866,20603); (23318,21956); (23351,21866); (23350,21867); (23355,23353); (23357,22618); (22610,21764);
(22611,21765); (23363,23361); (23365,22619); (23367,23359); (23369,20602); (23371,23349); (21957,20603); (23324,22618); (23357,22619); (23379,23377); (23381,20602); (23383,23375);
(23385,23373); (23386,23346); (23388,23304); (23390,23218); (21662,20603); (22610,21764); (23397,21662); (23396,21663); (23401,23399); (23403,22618); (22610,21766); (23407,21552);
(23406,21553); (23411,23409); (23412,22619); (23415,23405); (23417,20602); (23419,23395); (21765,20603); (23365,22618); (23403,22619); (23427,23425); (23429,20602); (23431,23423);
(23433,23421); (21438,20603); (23406,21552); (23439,21438); (23438,21439); (23443,23441); (23445,22618); (22988,21314); (22989,21315); (23451,23449); (23453,22619); (23455,23447);
(23457,20602); (23459,23437); (21553,20603); (23412,22618); (23445,22619); (23467,23465); (23469,20602); (23471,23463); (23473,23461); (23474,23434); (21188,20603); (22988,21314);
(23481,21188); (23480,21189); (23485,23483); (23487,22618); (22991,21046); (22990,21047); (23493,23491); (23495,22619); (23497,23489); (23499,20602); (23501,23479); (21315,20603);
(23453,22618); (23487,22619); (23509,23507); (23511,20602); (23513,23505); (23515,23503); (21046,20603); (23495,22618); (22999,22619); (23523,23521); (23525,20602); (23527,23519);
(23529,23004); (23530,23516); (23532,23476); (23534,23392); (23537,23071); (23538,293); (23541,295); (23543,275); (23545,277); (292,274); (23549,23547); (254,240);
(23553,23550); (194,180); (23557,23554); (23556,23552); (23561,23558); (23562,258); (274,70); (292,6); (23089,23009); (23061,23042); (23089,23043); (23575,23573);
(23577,23008); (23579,23571); (23580,23537); (23582,293); (23585,23569); (23587,275); (23589,23567); (23591,23549); (23592,23553); (23594,23557); (23596,23561); (23598,258);
(274,72); (292,8); (23129,23009); (23061,23042); (23129,23043); (23611,23609); (23613,23008); (23615,23607); (23616,23537); (23618,293); (23621,23605); (23623,275);
(23625,23603); (23627,23549); (23628,23553); (23630,23557); (23632,23561); (23634,258); (274,74); (292,10); (23117,23009); (23061,23042); (23117,23043); (23647,23645);
(23649,23008); (23651,23643); (23652,23537); (23654,293); (23657,23641); (23659,275); (23661,23639); (23663,23549); (23664,23553); (23666,23557); (23668,23561); (23670,258);
(274,76); (292,12); (23173,23009); (23061,23042); (23173,23043); (23683,23681); (23685,23008); (23687,23679); (23688,23537); (23690,293); (23693,23677); (23695,275);
(23697,23675); (23699,23549); (23700,23553); (23702,23557); (23704,23561); (23706,258); (274,78); (292,14); (23161,23009); (23061,23042); (23161,23043); (23719,23717);
(23721,23008); (23723,23715); (23724,23537); (23726,293); (23729,23713); (23731,275); (23733,23711); (23735,23549); (23736,23553); (23738,23557); (23740,23561); (23742,258);
(274,80); (292,16); (23213,23009); (23061,23042); (23213,23043); (23755,23753); (23757,23008); (23759,23751); (23760,23537); (23762,293); (23765,23749); (23767,275);
(23769,23747); (23771,23549); (23772,23553); (23774,23557); (23776,23561); (23778,258); (274,82); (292,18); (23201,23009); (23061,23042); (23201,23043); (23791,23789);
(23793,23008); (23795,23787); (23796,23537); (23798,293); (23801,23785); (23803,275); (23805,23783); (23807,23549); (23808,23553); (23810,23557); (23812,23561); (23814,258);
(274,84); (292,20); (23259,23009); (23061,23042); (23259,23043); (23827,23825); (23829,23008); (23831,23823); (23832,23537); (23834,293); (23837,23821); (23839,275);
(23841,23819); (23843,23549); (23844,23553); (23846,23557); (23848,23561); (23850,258); (274,86); (292,22); (23247,23009); (23061,23042); (23247,23043); (23863,23861);
(23865,23008); (23867,23859); (23868,23537); (23870,293); (23873,23857); (23875,275); (23877,23855); (23879,23549); (23880,23553); (23882,23557); (23884,23561); (23886,258);
(274,88); (292,24); (23301,23009); (23061,23042); (23301,23043); (23899,23897); (23901,23008); (23903,23895); (23904,23537); (23906,293); (23909,23893); (23911,275);
(23913,23891); (23915,23549); (23916,23553); (23918,23557); (23920,23561); (23922,258); (274,90); (292,26); (23289,23009); (23061,23042); (23289,23043); (23935,23933);
(23937,23008); (23939,23931); (23940,23537); (23942,293); (23945,23929); (23947,275); (23949,23927); (23951,23549); (23952,23553); (23954,23557); (23956,23561); (23958,258);
(274,92); (292,28); (23345,23009); (23061,23042); (23345,23043); (23971,23969); (23973,23008); (23975,23967); (23976,23537); (23978,293); (23981,23965); (23983,275);
(23985,23963); (23987,23549); (23988,23553); (23990,23557); (23992,23561); (23994,258); (274,94); (292,30); (23333,23009); (23061,23042); (23333,23043); (24007,24005);
(24009,23008); (24011,24003); (24012,23537); (24014,293); (24017,24001); (24019,275); (24021,23999); (24023,23549); (24024,23553); (24026,23557); (24028,23561); (24030,258);
(274,96); (292,32); (23385,23009); (23061,23042); (23385,23043); (24043,24041); (24045,23008); (24047,24039); (24048,23537); (24050,293); (24053,24037); (24055,275);
(24057,24035); (24059,23549); (24060,23553); (24062,23557); (24064,23561); (24066,258); (274,98); (292,34); (23373,23009); (23061,23042); (23373,23043); (24079,24077);
(24081,23008); (24083,24075); (24084,23537); (24086,293); (24089,24073); (24091,275); (24093,24071); (24095,23549); (24096,23553); (24098,23557); (24100,23561); (24102,258);
(274,100); (292,36); (23433,23009); (23061,23042); (23433,23043); (24115,24113); (24117,23008); (24119,24111); (24120,23537); (24122,293); (24125,24109); (24127,275);
(24129,24107); (24131,23549); (24132,23553); (24134,23557)].
Definition g30 : list (positive * positive) := [
(24136,23561); (24138,258); (274,102); (292,38); (23421,23009); (23061,23042); (23421,23043); (24151,24149); (24153,23008); (24155,24147); (24156,23537); (24158,293);
(24161,24145); (24163,275); (24165,24143); (24167,23549); (24168,23553); (24170,23557); (24172,23561); (24174,258); (274,104); (292,40); (23473,23009); (23061,23042);
(23473,23043); (24187,24185); (24189,23008); (24191,24183); (24192,23537); (24194,293); (24197,24181); (24199,275); (24201,24179); (24203,23549); (24204,23553); (24206,23557);
(24208,23561); (24210,258); (274,106); (292,42); (23461,23009); (23061,23042); (23461,23043); (24223,24221); (24225,23008); (24227,24219); (24228,23537); (24230,293);
(24233,24217); (24235,275); (24237,24215); (24239,23549); (24240,23553); (24242,23557); (24244,23561); (24246,258); (274,108); (292,44); (23515,23009); (23061,23042);
(23515,23043); (24259,24257); (24261,23008); (24263,24255); (24264,23537); (24266,293); (24269,24253); (24271,275); (24273,24251); (24275,23549); (24276,23553); (24278,23557);
(24280,23561); (24282,258); (274,110); (292,46); (23503,23009); (23061,23042); (23503,23043); (24295,24293); (24297,23008); (24299,24291); (24300,23537); (24302,293);
(24305,24289); (24307,275); (24309,24287); (24311,23549); (24312,23553); (24314,23557); (24316,23561); (24318,258); (23560,301); (274,113); (292,49); (23529,23009);
(23061,23042); (23529,23043); (24333,24331); (24335,23008); (24337,24329); (24338,23537); (24341,293); (24343,24327); (24345,275); (24347,24325); (24348,23549); (24350,23553);
(24352,23557); (24355,23561); (24357,24323); (24359,258); (274,115); (292,51); (20388,20385); (23050,20384); (24369,24367); (24370,23059); (24372,23042); (23043,22629);
(24377,24375); (24378,23008); (24380,23537); (24383,293); (24385,24365); (24387,275); (24389,24363); (24390,23549); (24393,23553); (24394,23557); (24396,23561); (24398,258);
(274,117); (292,53); (23043,22671); (24407,23008); (24408,23537); (24411,293); (24413,24405); (24415,275); (24417,24403); (24418,23549); (24421,23553); (24422,23557);
(24424,23561); (24426,258); (274,119); (292,55); (23043,22719); (24435,23008); (24436,23537); (24439,293); (24441,24433); (24443,275); (24445,24431); (24446,23549);
(24449,23553); (24450,23557); (24452,23561); (24454,258); (274,120); (292,56); (23043,22767); (24463,23008); (24464,23537); (24466,293); (24469,24461); (24471,275);
(24473,24459); (24475,23549); (24477,23553); (24478,23557); (24480,23561); (24482,258); (274,122); (292,58); (23043,22821); (24491,23008); (24492,23537); (24494,293);
(24497,24489); (24499,275); (24501,24487); (24503,23549); (24505,23553); (24506,23557); (24508,23561); (24510,258); (274,124); (292,60); (23043,22869); (24519,23008);
(24520,23537); (24522,293); (24525,24517); (24527,275); (24529,24515); (24531,23549); (24533,23553); (24534,23557); (24536,23561); (24538,258); (274,126); (292,62);
(23043,22925); (24547,23008); (24548,23537); (24550,293); (24553,24545); (24555,275); (24557,24543); (24559,23549); (24561,23553); (24562,23557); (24564,23561); (24566,258);
(274,128); (292,64); (23043,22973); (24575,23008); (24576,23537); (24578,293); (24581,24573); (24583,275); (24585,24571); (24587,23549); (24589,23553); (24590,23557);
(24592,23561); (24594,258); (130,66); (24599,23560); (23556,67); (23552,131); (131,67); (24606,23050); (24599,23051); (24611,24609); (24613,23548); (274,131);
(292,67); (23536,23051); (23009,20385); (20384,300); (24625,24599); (24626,23042); (23043,20385); (24631,24629); (24633,23008); (24635,24623); (24637,23537); (24639,24621);
(24641,293); (24643,24619); (24645,275); (24647,24617); (24649,23549); (24651,24615); (24653,23553); (24655,24605); (24657,23557); (24659,24603); (24661,23561); (24663,24601);
(24664,258); (23536,20424); (23009,20424); (23043,20424); (24672,23008); (24675,24671); (24677,23537); (24679,24669); (24680,293); (24682,275); (24684,23549); (24686,23553);
(24688,23557); (24690,23561); (24692,258); (23537,23009); (24696,293); (24698,275); (24700,23549); (24702,23553); (24704,23557); (24706,23561); (24708,258); (23042,23008);
(24712,23537); (24714,293); (24716,275); (24718,23549); (24720,23553); (24722,23557); (24724,23561); (24726,258); (23560,300); (24731,258)].
Definition fadd : list (positive * positive) * list positive :=
  (g0 ++ g1 ++ g2 ++ g3 ++ g4 ++ g5 ++ g6 ++ g7 ++ g8 ++ g9 ++ g10 ++ g11 ++
   g12 ++ g13 ++ g14 ++ g15 ++ g16 ++ g17 ++ g18 ++ g19 ++ g20 ++ g21 ++ g22 ++ g23 ++
   g24 ++ g25 ++ g26 ++ g27 ++ g28 ++ g29 ++ g30,
   [23564; 23600; 23636; 23672; 23708; 23744; 23780; 23816; 23852; 23888; 23924; 23960; 23996; 24032; 24068; 24104; 24140; 24176; 24212; 24248; 24284; 24320; 24361; 24401; 24429; 24457; 24485; 24513; 24541; 24569; 24597; 24666; 24694; 24710; 24728; 2; 24733]).
