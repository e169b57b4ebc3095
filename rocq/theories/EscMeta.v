(** Generated by tools/gen_esc.py from /repo/data.go:187-3524; do not edit.
    The keys of [_escData] with the fields [modtime] and [local]. *)
From Coq Require Import ZArith List String.
Import ListNotations.
Open Scope Z_scope.

Definition esc_meta : list (string * (Z * string)) := [
("/data/astro/astro-1900.json", (1439039563, "data/astro/astro-1900.json"));
("/data/astro/astro-1901.json", (1439039563, "data/astro/astro-1901.json"));
("/data/astro/astro-1902.json", (1439039565, "data/astro/astro-1902.json"));
("/data/astro/astro-1903.json", (1439039565, "data/astro/astro-1903.json"));
("/data/astro/astro-1904.json", (1439039565, "data/astro/astro-1904.json"));
("/data/astro/astro-1905.json", (1439039566, "data/astro/astro-1905.json"));
("/data/astro/astro-1906.json", (1439039567, "data/astro/astro-1906.json"));
("/data/astro/astro-1907.json", (1439039567, "data/astro/astro-1907.json"));
("/data/astro/astro-1908.json", (1439039567, "data/astro/astro-1908.json"));
("/data/astro/astro-1909.json", (1439039568, "data/astro/astro-1909.json"));
("/data/astro/astro-1910.json", (1439039568, "data/astro/astro-1910.json"));
("/data/astro/astro-1911.json", (1439039623, "data/astro/astro-1911.json"));
("/data/astro/astro-1912.json", (1439039623, "data/astro/astro-1912.json"));
("/data/astro/astro-1913.json", (1439039624, "data/astro/astro-1913.json"));
("/data/astro/astro-1914.json", (1439039625, "data/astro/astro-1914.json"));
("/data/astro/astro-1915.json", (1439039626, "data/astro/astro-1915.json"));
("/data/astro/astro-1916.json", (1439039627, "data/astro/astro-1916.json"));
("/data/astro/astro-1917.json", (1439039627, "data/astro/astro-1917.json"));
("/data/astro/astro-1918.json", (1439039628, "data/astro/astro-1918.json"));
("/data/astro/astro-1919.json", (1439039629, "data/astro/astro-1919.json"));
("/data/astro/astro-1920.json", (1439039629, "data/astro/astro-1920.json"));
("/data/astro/astro-1921.json", (1439039630, "data/astro/astro-1921.json"));
("/data/astro/astro-1922.json", (1439039682, "data/astro/astro-1922.json"));
("/data/astro/astro-1923.json", (1439039684, "data/astro/astro-1923.json"));
("/data/astro/astro-1924.json", (1439039684, "data/astro/astro-1924.json"));
("/data/astro/astro-1925.json", (1439039684, "data/astro/astro-1925.json"));
("/data/astro/astro-1926.json", (1439039685, "data/astro/astro-1926.json"));
("/data/astro/astro-1927.json", (1439039685, "data/astro/astro-1927.json"));
("/data/astro/astro-1928.json", (1439039686, "data/astro/astro-1928.json"));
("/data/astro/astro-1929.json", (1439039686, "data/astro/astro-1929.json"));
("/data/astro/astro-1930.json", (1439039686, "data/astro/astro-1930.json"));
("/data/astro/astro-1931.json", (1439039687, "data/astro/astro-1931.json"));
("/data/astro/astro-1932.json", (1439039688, "data/astro/astro-1932.json"));
("/data/astro/astro-1933.json", (1439039743, "data/astro/astro-1933.json"));
("/data/astro/astro-1934.json", (1439039743, "data/astro/astro-1934.json"));
("/data/astro/astro-1935.json", (1439039743, "data/astro/astro-1935.json"));
("/data/astro/astro-1936.json", (1439039744, "data/astro/astro-1936.json"));
("/data/astro/astro-1937.json", (1439039744, "data/astro/astro-1937.json"));
("/data/astro/astro-1938.json", (1439039744, "data/astro/astro-1938.json"));
("/data/astro/astro-1939.json", (1439039745, "data/astro/astro-1939.json"));
("/data/astro/astro-1940.json", (1439039745, "data/astro/astro-1940.json"));
("/data/astro/astro-1941.json", (1439039745, "data/astro/astro-1941.json"));
("/data/astro/astro-1942.json", (1439039746, "data/astro/astro-1942.json"));
("/data/astro/astro-1943.json", (1439039747, "data/astro/astro-1943.json"));
("/data/astro/astro-1944.json", (1439039803, "data/astro/astro-1944.json"));
("/data/astro/astro-1945.json", (1439039803, "data/astro/astro-1945.json"));
("/data/astro/astro-1946.json", (1439039804, "data/astro/astro-1946.json"));
("/data/astro/astro-1947.json", (1439039805, "data/astro/astro-1947.json"));
("/data/astro/astro-1948.json", (1439039805, "data/astro/astro-1948.json"));
("/data/astro/astro-1949.json", (1439039806, "data/astro/astro-1949.json"));
("/data/astro/astro-1950.json", (1439039806, "data/astro/astro-1950.json"));
("/data/astro/astro-1951.json", (1439039806, "data/astro/astro-1951.json"));
("/data/astro/astro-1952.json", (1439039807, "data/astro/astro-1952.json"));
("/data/astro/astro-1953.json", (1439039807, "data/astro/astro-1953.json"));
("/data/astro/astro-1954.json", (1439039808, "data/astro/astro-1954.json"));
("/data/astro/astro-1955.json", (1439039862, "data/astro/astro-1955.json"));
("/data/astro/astro-1956.json", (1439039863, "data/astro/astro-1956.json"));
("/data/astro/astro-1957.json", (1439039863, "data/astro/astro-1957.json"));
("/data/astro/astro-1958.json", (1439039864, "data/astro/astro-1958.json"));
("/data/astro/astro-1959.json", (1439039864, "data/astro/astro-1959.json"));
("/data/astro/astro-1960.json", (1439039864, "data/astro/astro-1960.json"));
("/data/astro/astro-1961.json", (1439039865, "data/astro/astro-1961.json"));
("/data/astro/astro-1962.json", (1439039865, "data/astro/astro-1962.json"));
("/data/astro/astro-1963.json", (1439039866, "data/astro/astro-1963.json"));
("/data/astro/astro-1964.json", (1439039866, "data/astro/astro-1964.json"));
("/data/astro/astro-1965.json", (1439039866, "data/astro/astro-1965.json"));
("/data/astro/astro-1966.json", (1439039922, "data/astro/astro-1966.json"));
("/data/astro/astro-1967.json", (1439039923, "data/astro/astro-1967.json"));
("/data/astro/astro-1968.json", (1439039923, "data/astro/astro-1968.json"));
("/data/astro/astro-1969.json", (1439039923, "data/astro/astro-1969.json"));
("/data/astro/astro-1970.json", (1439039924, "data/astro/astro-1970.json"));
("/data/astro/astro-1971.json", (1439039924, "data/astro/astro-1971.json"));
("/data/astro/astro-1972.json", (1439039925, "data/astro/astro-1972.json"));
("/data/astro/astro-1973.json", (1439039925, "data/astro/astro-1973.json"));
("/data/astro/astro-1974.json", (1439039926, "data/astro/astro-1974.json"));
("/data/astro/astro-1975.json", (1439039926, "data/astro/astro-1975.json"));
("/data/astro/astro-1976.json", (1439039926, "data/astro/astro-1976.json"));
("/data/astro/astro-1977.json", (1439039982, "data/astro/astro-1977.json"));
("/data/astro/astro-1978.json", (1439039982, "data/astro/astro-1978.json"));
("/data/astro/astro-1979.json", (1439039983, "data/astro/astro-1979.json"));
("/data/astro/astro-1980.json", (1439039983, "data/astro/astro-1980.json"));
("/data/astro/astro-1981.json", (1439039984, "data/astro/astro-1981.json"));
("/data/astro/astro-1982.json", (1439039984, "data/astro/astro-1982.json"));
("/data/astro/astro-1983.json", (1439039985, "data/astro/astro-1983.json"));
("/data/astro/astro-1984.json", (1439039985, "data/astro/astro-1984.json"));
("/data/astro/astro-1985.json", (1439039985, "data/astro/astro-1985.json"));
("/data/astro/astro-1986.json", (1439039986, "data/astro/astro-1986.json"));
("/data/astro/astro-1987.json", (1439039986, "data/astro/astro-1987.json"));
("/data/astro/astro-1988.json", (1439040045, "data/astro/astro-1988.json"));
("/data/astro/astro-1989.json", (1439040046, "data/astro/astro-1989.json"));
("/data/astro/astro-1990.json", (1439040048, "data/astro/astro-1990.json"));
("/data/astro/astro-1991.json", (1439040049, "data/astro/astro-1991.json"));
("/data/astro/astro-1992.json", (1439040049, "data/astro/astro-1992.json"));
("/data/astro/astro-1993.json", (1439040050, "data/astro/astro-1993.json"));
("/data/astro/astro-1994.json", (1439040053, "data/astro/astro-1994.json"));
("/data/astro/astro-1995.json", (1439040055, "data/astro/astro-1995.json"));
("/data/astro/astro-1996.json", (1439040057, "data/astro/astro-1996.json"));
("/data/astro/astro-1997.json", (1439040058, "data/astro/astro-1997.json"));
("/data/astro/astro-1998.json", (1439040060, "data/astro/astro-1998.json"));
("/data/astro/astro-1999.json", (1439040102, "data/astro/astro-1999.json"));
("/data/astro/astro-2000.json", (1439040103, "data/astro/astro-2000.json"));
("/data/astro/astro-2001.json", (1439040103, "data/astro/astro-2001.json"));
("/data/astro/astro-2002.json", (1439040104, "data/astro/astro-2002.json"));
("/data/astro/astro-2003.json", (1439040104, "data/astro/astro-2003.json"));
("/data/astro/astro-2004.json", (1439040105, "data/astro/astro-2004.json"));
("/data/astro/astro-2005.json", (1439040105, "data/astro/astro-2005.json"));
("/data/astro/astro-2006.json", (1439040106, "data/astro/astro-2006.json"));
("/data/astro/astro-2007.json", (1439040106, "data/astro/astro-2007.json"));
("/data/astro/astro-2008.json", (1439040107, "data/astro/astro-2008.json"));
("/data/astro/astro-2009.json", (1439040107, "data/astro/astro-2009.json"));
("/data/astro/astro-2010.json", (1439040163, "data/astro/astro-2010.json"));
("/data/astro/astro-2011.json", (1439040163, "data/astro/astro-2011.json"));
("/data/astro/astro-2012.json", (1439040164, "data/astro/astro-2012.json"));
("/data/astro/astro-2013.json", (1439040164, "data/astro/astro-2013.json"));
("/data/astro/astro-2014.json", (1439040165, "data/astro/astro-2014.json"));
("/data/astro/astro-2015.json", (1439040165, "data/astro/astro-2015.json"));
("/data/astro/astro-2016.json", (1439040165, "data/astro/astro-2016.json"));
("/data/astro/astro-2017.json", (1439040166, "data/astro/astro-2017.json"));
("/data/astro/astro-2018.json", (1439040166, "data/astro/astro-2018.json"));
("/data/astro/astro-2019.json", (1439040167, "data/astro/astro-2019.json"));
("/data/astro/astro-2020.json", (1439040167, "data/astro/astro-2020.json"));
("/data/astro/astro-2021.json", (1439040223, "data/astro/astro-2021.json"));
("/data/astro/astro-2022.json", (1439040224, "data/astro/astro-2022.json"));
("/data/astro/astro-2023.json", (1439040224, "data/astro/astro-2023.json"));
("/data/astro/astro-2024.json", (1439040224, "data/astro/astro-2024.json"));
("/data/astro/astro-2025.json", (1439040225, "data/astro/astro-2025.json"));
("/data/astro/astro-2026.json", (1439040225, "data/astro/astro-2026.json"));
("/data/astro/astro-2027.json", (1439040226, "data/astro/astro-2027.json"));
("/data/astro/astro-2028.json", (1439040226, "data/astro/astro-2028.json"));
("/data/astro/astro-2029.json", (1439040227, "data/astro/astro-2029.json"));
("/data/astro/astro-2030.json", (1439040227, "data/astro/astro-2030.json"));
("/data/astro/astro-2031.json", (1439040227, "data/astro/astro-2031.json"));
("/data/astro/astro-2032.json", (1439040282, "data/astro/astro-2032.json"));
("/data/astro/astro-2033.json", (1439040282, "data/astro/astro-2033.json"));
("/data/astro/astro-2034.json", (1439040283, "data/astro/astro-2034.json"));
("/data/astro/astro-2035.json", (1439040283, "data/astro/astro-2035.json"));
("/data/astro/astro-2036.json", (1439040284, "data/astro/astro-2036.json"));
("/data/astro/astro-2037.json", (1439040284, "data/astro/astro-2037.json"));
("/data/astro/astro-2038.json", (1439040284, "data/astro/astro-2038.json"));
("/data/astro/astro-2039.json", (1439040285, "data/astro/astro-2039.json"));
("/data/astro/astro-2040.json", (1439040285, "data/astro/astro-2040.json"));
("/", (0, "/"));
("/data", (0, "/data"));
("/data/astro", (0, "/data/astro"))]%string.
