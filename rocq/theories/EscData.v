(** Generated by tools/gen_esc.py from /repo/data.go:187-3524; do not edit.
    The keys of [_escData] with the fields [size] and [isDir]. *)
From Coq Require Import ZArith List String.
Import ListNotations.
Open Scope Z_scope.

Definition esc_entries : list (string * (Z * bool)) := [
("/data/astro/astro-1900.json", (116, false));
("/data/astro/astro-1901.json", (116, false));
("/data/astro/astro-1902.json", (4916, false));
("/data/astro/astro-1903.json", (4822, false));
("/data/astro/astro-1904.json", (4917, false));
("/data/astro/astro-1905.json", (4817, false));
("/data/astro/astro-1906.json", (4918, false));
("/data/astro/astro-1907.json", (4821, false));
("/data/astro/astro-1908.json", (4917, false));
("/data/astro/astro-1909.json", (4818, false));
("/data/astro/astro-1910.json", (4821, false));
("/data/astro/astro-1911.json", (4822, false));
("/data/astro/astro-1912.json", (4917, false));
("/data/astro/astro-1913.json", (4817, false));
("/data/astro/astro-1914.json", (4822, false));
("/data/astro/astro-1915.json", (4917, false));
("/data/astro/astro-1916.json", (4817, false));
("/data/astro/astro-1917.json", (4818, false));
("/data/astro/astro-1918.json", (4821, false));
("/data/astro/astro-1919.json", (4917, false));
("/data/astro/astro-1920.json", (4818, false));
("/data/astro/astro-1921.json", (4916, false));
("/data/astro/astro-1922.json", (4822, false));
("/data/astro/astro-1923.json", (4917, false));
("/data/astro/astro-1924.json", (4817, false));
("/data/astro/astro-1925.json", (4918, false));
("/data/astro/astro-1926.json", (4821, false));
("/data/astro/astro-1927.json", (4817, false));
("/data/astro/astro-1928.json", (4818, false));
("/data/astro/astro-1929.json", (4821, false));
("/data/astro/astro-1930.json", (4822, false));
("/data/astro/astro-1931.json", (4818, false));
("/data/astro/astro-1932.json", (4916, false));
("/data/astro/astro-1933.json", (4822, false));
("/data/astro/astro-1934.json", (4821, false));
("/data/astro/astro-1935.json", (4817, false));
("/data/astro/astro-1936.json", (4918, false));
("/data/astro/astro-1937.json", (4821, false));
("/data/astro/astro-1938.json", (4883, false));
("/data/astro/astro-1939.json", (4769, false));
("/data/astro/astro-1940.json", (4866, false));
("/data/astro/astro-1941.json", (4773, false));
("/data/astro/astro-1942.json", (4867, false));
("/data/astro/astro-1943.json", (4768, false));
("/data/astro/astro-1944.json", (4868, false));
("/data/astro/astro-1945.json", (4772, false));
("/data/astro/astro-1946.json", (4768, false));
("/data/astro/astro-1947.json", (4769, false));
("/data/astro/astro-1948.json", (4866, false));
("/data/astro/astro-1949.json", (4773, false));
("/data/astro/astro-1950.json", (4769, false));
("/data/astro/astro-1951.json", (4866, false));
("/data/astro/astro-1952.json", (4773, false));
("/data/astro/astro-1953.json", (4772, false));
("/data/astro/astro-1954.json", (4768, false));
("/data/astro/astro-1955.json", (4868, false));
("/data/astro/astro-1956.json", (4772, false));
("/data/astro/astro-1957.json", (4867, false));
("/data/astro/astro-1958.json", (4769, false));
("/data/astro/astro-1959.json", (4866, false));
("/data/astro/astro-1960.json", (4773, false));
("/data/astro/astro-1961.json", (4867, false));
("/data/astro/astro-1962.json", (4768, false));
("/data/astro/astro-1963.json", (4868, false));
("/data/astro/astro-1964.json", (4772, false));
("/data/astro/astro-1965.json", (4768, false));
("/data/astro/astro-1966.json", (4761, false));
("/data/astro/astro-1967.json", (4723, false));
("/data/astro/astro-1968.json", (4724, false));
("/data/astro/astro-1969.json", (4704, false));
("/data/astro/astro-1970.json", (116, false));
("/data/astro/astro-1971.json", (4675, false));
("/data/astro/astro-1972.json", (4674, false));
("/data/astro/astro-1973.json", (4711, false));
("/data/astro/astro-1974.json", (4818, false));
("/data/astro/astro-1975.json", (4723, false));
("/data/astro/astro-1976.json", (4817, false));
("/data/astro/astro-1977.json", (4720, false));
("/data/astro/astro-1978.json", (4816, false));
("/data/astro/astro-1979.json", (4724, false));
("/data/astro/astro-1980.json", (4817, false));
("/data/astro/astro-1981.json", (4719, false));
("/data/astro/astro-1982.json", (4818, false));
("/data/astro/astro-1983.json", (4723, false));
("/data/astro/astro-1984.json", (4817, false));
("/data/astro/astro-1985.json", (4720, false));
("/data/astro/astro-1986.json", (4723, false));
("/data/astro/astro-1987.json", (4724, false));
("/data/astro/astro-1988.json", (4720, false));
("/data/astro/astro-1989.json", (4719, false));
("/data/astro/astro-1990.json", (4724, false));
("/data/astro/astro-1991.json", (4723, false));
("/data/astro/astro-1992.json", (4719, false));
("/data/astro/astro-1993.json", (4818, false));
("/data/astro/astro-1994.json", (4723, false));
("/data/astro/astro-1995.json", (4817, false));
("/data/astro/astro-1996.json", (4720, false));
("/data/astro/astro-1997.json", (4816, false));
("/data/astro/astro-1998.json", (4724, false));
("/data/astro/astro-1999.json", (4817, false));
("/data/astro/astro-2000.json", (4719, false));
("/data/astro/astro-2001.json", (4834, false));
("/data/astro/astro-2002.json", (4772, false));
("/data/astro/astro-2003.json", (4867, false));
("/data/astro/astro-2004.json", (4769, false));
("/data/astro/astro-2005.json", (4772, false));
("/data/astro/astro-2006.json", (4773, false));
("/data/astro/astro-2007.json", (4769, false));
("/data/astro/astro-2008.json", (4768, false));
("/data/astro/astro-2009.json", (4773, false));
("/data/astro/astro-2010.json", (4772, false));
("/data/astro/astro-2011.json", (4768, false));
("/data/astro/astro-2012.json", (4868, false));
("/data/astro/astro-2013.json", (4772, false));
("/data/astro/astro-2014.json", (4867, false));
("/data/astro/astro-2015.json", (4769, false));
("/data/astro/astro-2016.json", (4866, false));
("/data/astro/astro-2017.json", (4773, false));
("/data/astro/astro-2018.json", (4867, false));
("/data/astro/astro-2019.json", (4768, false));
("/data/astro/astro-2020.json", (4868, false));
("/data/astro/astro-2021.json", (4772, false));
("/data/astro/astro-2022.json", (4867, false));
("/data/astro/astro-2023.json", (4769, false));
("/data/astro/astro-2024.json", (4866, false));
("/data/astro/astro-2025.json", (4773, false));
("/data/astro/astro-2026.json", (4867, false));
("/data/astro/astro-2027.json", (4768, false));
("/data/astro/astro-2028.json", (4773, false));
("/data/astro/astro-2029.json", (4772, false));
("/data/astro/astro-2030.json", (4768, false));
("/data/astro/astro-2031.json", (4769, false));
("/data/astro/astro-2032.json", (4772, false));
("/data/astro/astro-2033.json", (1874, false));
("/data/astro/astro-2034.json", (116, false));
("/data/astro/astro-2035.json", (116, false));
("/data/astro/astro-2036.json", (116, false));
("/data/astro/astro-2037.json", (116, false));
("/data/astro/astro-2038.json", (116, false));
("/data/astro/astro-2039.json", (116, false));
("/data/astro/astro-2040.json", (116, false));
("/", (0, true));
("/data", (0, true));
("/data/astro", (0, true))]%string.
