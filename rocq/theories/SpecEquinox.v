(** SpecEquinox.v -- data the year table is judged against: the project's own list of vernal equinoxes, and the leap
    years it implies. *)
From Coq Require Import ZArith List Bool.
Import ListNotations.
Local Open Scope Z_scope.

(** /repo/contrib/charts/VernalEquinox-1788-2211.dates, copied: Gregorian year, day of March, hour and minute (UT) of the
    vernal equinox. *)
Definition equinoxes : list (Z * Z * Z * Z) :=
  [
   (1788,19,22,16); (1789,20,4,4); (1790,20,9,54); (1791,20,15,48); (1792,19,21,32); (1793,20,3,20); (1794,20,9,16);
   (1795,20,15,4); (1796,19,20,53); (1797,20,2,47); (1798,20,8,38); (1799,20,14,30); (1800,20,20,11);
   (1801,21,1,55); (1802,21,7,48); (1803,21,13,33); (1804,20,19,17); (1805,21,1,4); (1806,21,6,52); (1807,21,12,41);
   (1808,20,18,29); (1809,21,0,21); (1810,21,6,20); (1811,21,12,13); (1812,20,17,59); (1813,20,23,49);
   (1814,21,5,42); (1815,21,11,30); (1816,20,17,15); (1817,20,23,0); (1818,21,4,49); (1819,21,10,38);
   (1820,20,16,23); (1821,20,22,15); (1822,21,4,9); (1823,21,9,54); (1824,20,15,38); (1825,20,21,25);
   (1826,21,3,16); (1827,21,9,8); (1828,20,14,53); (1829,20,20,42); (1830,21,2,36); (1831,21,8,26); (1832,20,14,16);
   (1833,20,20,11); (1834,21,2,4); (1835,21,7,55); (1836,20,13,39); (1837,20,19,23); (1838,21,1,17); (1839,21,6,59);
   (1840,20,12,40); (1841,20,18,28); (1842,21,0,13); (1843,21,6,4); (1844,20,11,53); (1845,20,17,43);
   (1846,20,23,45); (1847,21,5,32); (1848,20,11,17); (1849,20,17,12); (1850,20,23,2); (1851,21,4,54);
   (1852,20,10,41); (1853,20,16,24); (1854,20,22,19); (1855,21,4,5); (1856,20,9,49); (1857,20,15,45);
   (1858,20,21,31); (1859,21,3,18); (1860,20,9,4); (1861,20,14,46); (1862,20,20,42); (1863,21,2,30); (1864,20,8,10);
   (1865,20,14,6); (1866,20,19,54); (1867,21,1,46); (1868,20,7,43); (1869,20,13,32); (1870,20,19,32);
   (1871,21,1,20); (1872,20,6,57); (1873,20,12,52); (1874,20,18,38); (1875,21,0,21); (1876,20,6,10);
   (1877,20,11,48); (1878,20,17,42); (1879,20,23,32); (1880,20,5,13); (1881,20,11,14); (1882,20,17,4);
   (1883,20,22,50); (1884,20,4,44); (1885,20,10,29); (1886,20,16,26); (1887,20,22,18); (1888,20,3,56);
   (1889,20,9,51); (1890,20,15,41); (1891,20,21,25); (1892,20,3,22); (1893,20,9,8); (1894,20,14,59);
   (1895,20,20,49); (1896,20,2,23); (1897,20,8,16); (1898,20,14,6); (1899,20,19,46); (1900,21,1,39); (1901,21,7,23);
   (1902,21,13,16); (1903,21,19,15); (1904,21,0,58); (1905,21,6,57); (1906,21,12,53); (1907,21,18,33);
   (1908,21,0,27); (1909,21,6,13); (1910,21,12,3); (1911,21,17,54); (1912,20,23,29); (1913,21,5,18);
   (1914,21,11,11); (1915,21,16,51); (1916,20,22,47); (1917,21,4,37); (1918,21,10,26); (1919,21,16,19);
   (1920,20,21,59); (1921,21,3,51); (1922,21,9,49); (1923,21,15,29); (1924,20,21,20); (1925,21,3,12); (1926,21,9,1);
   (1927,21,14,59); (1928,20,20,44); (1929,21,2,35); (1930,21,8,30); (1931,21,14,6); (1932,20,19,54);
   (1933,21,1,43); (1934,21,7,28); (1935,21,13,18); (1936,20,18,58); (1937,21,0,45); (1938,21,6,43);
   (1939,21,12,28); (1940,20,18,24); (1941,21,0,20); (1942,21,6,11); (1943,21,12,3); (1944,20,17,49);
   (1945,20,23,37); (1946,21,5,33); (1947,21,11,13); (1948,20,16,57); (1949,20,22,48); (1950,21,4,35);
   (1951,21,10,26); (1952,20,16,14); (1953,20,22,1); (1954,21,3,53); (1955,21,9,35); (1956,20,15,20);
   (1957,20,21,16); (1958,21,3,6); (1959,21,8,55); (1960,20,14,43); (1961,20,20,32); (1962,21,2,30); (1963,21,8,20);
   (1964,20,14,10); (1965,20,20,5); (1966,21,1,53); (1967,21,7,37); (1968,20,13,22); (1969,20,19,8); (1970,21,0,56);
   (1971,21,6,38); (1972,20,12,22); (1973,20,18,13); (1974,21,0,7); (1975,21,5,57); (1976,20,11,50);
   (1977,20,17,42); (1978,20,23,34); (1979,21,5,22); (1980,20,11,10); (1981,20,17,3); (1982,20,22,56);
   (1983,21,4,39); (1984,20,10,24); (1985,20,16,14); (1986,20,22,3); (1987,21,3,52); (1988,20,9,39);
   (1989,20,15,28); (1990,20,21,19); (1991,21,3,2); (1992,20,8,48); (1993,20,14,41); (1994,20,20,28);
   (1995,21,2,15); (1996,20,8,3); (1997,20,13,55); (1998,20,19,55); (1999,21,1,46); (2000,20,7,35); (2001,20,13,31);
   (2002,20,19,16); (2003,21,1,0); (2004,20,6,49); (2005,20,12,33); (2006,20,18,26); (2007,21,0,7); (2008,20,5,48);
   (2009,20,11,44); (2010,20,17,32); (2011,20,23,21); (2012,20,5,14); (2013,20,11,2); (2014,20,16,57);
   (2015,20,22,45); (2016,20,4,30); (2017,20,10,28); (2018,20,16,15); (2019,20,21,58); (2020,20,3,49);
   (2021,20,9,37); (2022,20,15,33); (2023,20,21,24); (2024,20,3,6); (2025,20,9,1); (2026,20,14,45); (2027,20,20,24);
   (2028,20,2,16); (2029,20,8,1); (2030,20,13,51); (2031,20,19,40); (2032,20,1,21); (2033,20,7,22); (2034,20,13,17);
   (2035,20,19,2); (2036,20,1,2); (2037,20,6,49); (2038,20,12,40); (2039,20,18,31); (2040,20,0,11); (2041,20,6,6);
   (2042,20,11,52); (2043,20,17,27); (2044,19,23,19); (2045,20,5,7); (2046,20,10,57); (2047,20,16,52);
   (2048,19,22,33); (2049,20,4,27); (2050,20,10,18); (2051,20,15,58); (2052,19,21,55); (2053,20,3,46);
   (2054,20,9,33); (2055,20,15,27); (2056,19,21,10); (2057,20,3,7); (2058,20,9,4); (2059,20,14,43); (2060,19,20,37);
   (2061,20,2,25); (2062,20,8,6); (2063,20,13,58); (2064,19,19,37); (2065,20,1,27); (2066,20,7,19); (2067,20,12,52);
   (2068,19,18,48); (2069,20,0,44); (2070,20,6,34); (2071,20,12,33); (2072,19,18,20); (2073,20,0,12); (2074,20,6,8);
   (2075,20,11,45); (2076,19,17,37); (2077,19,23,30); (2078,20,5,9); (2079,20,10,59); (2080,19,16,43);
   (2081,19,22,33); (2082,20,4,29); (2083,20,10,9); (2084,19,15,58); (2085,19,21,52); (2086,20,3,34);
   (2087,20,9,27); (2088,19,15,16); (2089,19,21,5); (2090,20,3,1); (2091,20,8,41); (2092,19,14,32); (2093,19,20,33);
   (2094,20,2,20); (2095,20,8,14); (2096,19,14,2); (2097,19,19,47); (2098,20,1,39); (2099,20,7,17); (2100,20,13,3);
   (2101,20,18,55); (2102,21,0,35); (2103,21,6,22); (2104,20,12,13); (2105,20,18,5); (2106,21,0,3); (2107,21,5,49);
   (2108,20,11,38); (2109,20,17,35); (2110,20,23,21); (2111,21,5,10); (2112,20,11,2); (2113,20,16,50);
   (2114,20,22,38); (2115,21,4,21); (2116,20,10,8); (2117,20,16,5); (2118,20,21,52); (2119,21,3,38); (2120,20,9,28);
   (2121,20,15,15); (2122,20,21,3); (2123,21,2,48); (2124,20,8,34); (2125,20,14,28); (2126,20,20,14); (2127,21,2,2);
   (2128,20,7,57); (2129,20,13,54); (2130,20,19,48); (2131,21,1,36); (2132,20,7,23); (2133,20,13,14);
   (2134,20,19,0); (2135,21,0,44); (2136,20,6,32); (2137,20,12,20); (2138,20,18,3); (2139,20,23,47); (2140,20,5,36);
   (2141,20,11,31); (2142,20,17,23); (2143,20,23,10); (2144,20,5,0); (2145,20,10,56); (2146,20,16,42);
   (2147,20,22,31); (2148,20,4,22); (2149,20,10,12); (2150,20,16,1); (2151,20,21,46); (2152,20,3,37);
   (2153,20,9,35); (2154,20,15,21); (2155,20,21,4); (2156,20,2,52); (2157,20,8,38); (2158,20,14,25);
   (2159,20,20,10); (2160,20,1,56); (2161,20,7,50); (2162,20,13,36); (2163,20,19,22); (2164,20,1,21);
   (2165,20,7,15); (2166,20,13,8); (2167,20,18,59); (2168,20,0,45); (2169,20,6,42); (2170,20,12,27); (2171,20,18,8);
   (2172,20,0,0); (2173,20,5,43); (2174,20,11,26); (2175,20,17,15); (2176,19,23,1); (2177,20,5,1); (2178,20,10,48);
   (2179,20,16,30); (2180,19,22,26); (2181,20,4,14); (2182,20,10,2); (2183,20,15,55); (2184,19,21,41);
   (2185,20,3,38); (2186,20,9,26); (2187,20,15,8); (2188,19,21,8); (2189,20,2,59); (2190,20,8,43); (2191,20,14,34);
   (2192,19,20,15); (2193,20,2,6); (2194,20,7,54); (2195,20,13,31); (2196,19,19,26); (2197,20,1,12); (2198,20,6,53);
   (2199,20,12,50); (2200,20,18,40); (2201,21,0,40); (2202,21,6,36); (2203,21,12,15); (2204,20,18,13);
   (2205,21,0,4); (2206,21,5,44); (2207,21,11,38); (2208,20,17,20); (2209,20,23,10); (2210,21,4,59); (2211,21,10,38)
  ].

(** Number of a day of March in the proleptic Gregorian calendar; 1 March of the year 1 is day 60. *)
Definition march (y d : Z) : Z :=
  365 * (y - 1) + (y - 1) / 4 - (y - 1) / 100 + (y - 1) / 400 + 59 +
  (if (y mod 4 =? 0) && (negb (y mod 100 =? 0) || (y mod 400 =? 0)) then 1 else 0) + d.

(** Minutes since 0h UT of day 0. *)
Definition minutes (day h mi : Z) : Z := 1440 * day + 60 * h + mi.

(** Leap years that come five, not four, years after the leap year before. *)
Definition five_year_gaps : list Z :=
  [
   -1813; -1780; -1747; -1714; -1681; -1648; -1615; -1582; -1549; -1516; -1483; -1450; -1413; -1380; -1347; -1314;
   -1281; -1248; -1215; -1182; -1149; -1116; -1083; -1050; -1017; -980; -947; -914; -881; -848; -815; -782; -749;
   -716; -683; -650; -617; -580; -547; -514; -481; -448; -415; -382; -349; -316; -283; -242; -209; -176; -143; -110;
   -77; -44; -11; 22; 55; 88; 117; 150; 187; 216; 249; 282; 315; 348; 381; 414; 447; 480; 513; 546; 579; 612; 645;
   678; 711; 744; 777; 810; 843; 876; 909; 942; 975; 1008; 1041; 1074; 1107; 1140
  ].
