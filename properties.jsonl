{"id": "C01", "title": "Year values stay in their ranges", "statement": "After SuriyaYear.Init(y) with y >= 638: Year = y, BE_Year = y+543, CS_Year = y-638, Horakhun >= 1, 1 <= Kammacubala <= 800, 0 <= Uccabala < 3232, 0 <= Avoman < 692, Masaken >= 0, 0 <= Tithi <= 29. Before the era (y < 638) Go's truncating % breaks this, and the exact failure is exhibited.", "quantifier": "every integer year y >= 638 (and a witness below 638)", "why_tests_cant": "The quantifier ranges over unboundedly many inputs; the repo's tests sample a few dozen literals.", "anchors": ["suriya_year.go:SuriyaYear.Init", "suriya.go:constants"]}
{"id": "C02", "title": "Horakhun and Kammacubala are the exact whole days and 800ths of a day of the era", "statement": "For y >= 638, Horakhun counts the days begun and Kammacubala the 800ths of a day remaining: 800*Horakhun - Kammacubala = 292207*(y-638) + 373 with 1 <= Kammacubala <= 800; this determines both uniquely.", "quantifier": "every year y >= 638", "why_tests_cant": "The quantifier ranges over unboundedly many inputs; the repo's tests sample a few dozen literals.", "anchors": ["suriya_year.go:SuriyaYear.Init"]}
{"id": "C03", "title": "Solar leap rule", "statement": "For y >= 638 the Horakhun of year y+1 is 366 days after that of year y exactly when Is_Suriya_Leap() holds for y (Kammacubala <= 207), and 365 days after otherwise.", "quantifier": "every year y >= 638 (refuted just before the era)", "why_tests_cant": "The quantifier ranges over unboundedly many inputs; the repo's tests sample a few dozen literals.", "anchors": ["suriya_year.go:Is_Suriya_Leap", "suriya_year.go:SuriyaYear.Init"]}
{"id": "C04", "title": "800-year era cycle", "statement": "For y >= 638 and k >= 0, Horakhun(y+800k) = Horakhun(y) + 292207k and Kammacubala(y+800k) = Kammacubala(y), so leap years repeat every 800 years.", "quantifier": "every year y >= 638 and every k >= 0", "why_tests_cant": "The quantifier ranges over unboundedly many inputs; the repo's tests sample a few dozen literals.", "anchors": ["suriya_year.go:SuriyaYear.Init", "suriya.go:EraDays,EraYears"]}
{"id": "C05", "title": "Masaken, Tithi and Avoman are the exact lunar-day count of the day Horakhun", "statement": "For y >= 638, 692*(30*Masaken + Tithi) + Avoman = 703*Horakhun + 650 with 0 <= Tithi < 30 and 0 <= Avoman < 692: the elapsed lunar months, the moon's age and the remainder are those of 703 tithis per 692 days.", "quantifier": "every year y >= 638", "why_tests_cant": "The quantifier ranges over unboundedly many inputs; the repo's tests sample a few dozen literals.", "anchors": ["suriya_year.go:SuriyaYear.Init"]}
{"id": "C06", "title": "int64/float64 arithmetic computes the exact integer values", "statement": "Executed with Go's wrapping int64 and IEEE binary64 arithmetic (float64 division, math.Floor, conversions), SuriyaYear.Init and the integer fields of SuriyaDay.Init equal the exact integer formulas for every year and day of magnitude up to 10^12. For the year the exact range is -2241797892130..2241797893189: one year further on either side rounding makes the Tithi wrong. For the days of those years it is Horakhun -818836295886208..818836295885838, again with a wrong Tithi one day further. Much later overflow makes the Horakhun negative (witness).", "quantifier": "every year and lunar day with absolute value <= 10^12, and the exact ranges", "why_tests_cant": "Rounding and overflow errors occur at isolated inputs; 2*10^12 years cannot be sampled.", "anchors": ["suriya_year.go:SuriyaYear.Init", "suriya_day.go:SuriyaDay.Init"]}
{"id": "C07", "title": "Adhikamasa years are 2 or 3 years apart and DeltaAdhikamasa is exact", "statement": "From 638 on two consecutive adhikamasa years are exactly 2 or 3 years apart, never adjacent; from 639 on DeltaAdhikamasa() is 1, 2 or 3, never -1, and is the distance to the latest earlier adhikamasa year; for 638, the first year of the era, it is -1 (witness).", "quantifier": "every year from the start of the era", "why_tests_cant": "The quantifier ranges over unboundedly many inputs; the repo's tests sample a few dozen literals.", "anchors": ["suriya_year.go:Is_Adhikamasa", "suriya_year.go:DeltaAdhikamasa"]}
{"id": "C08", "title": "Intercalary months track the lunar month count for ever", "statement": "For all 640 <= y1 <= y2, 12*(y2-y1) plus the number of adhikamasa years in [y1,y2) equals Masaken(y2)-Masaken(y1) up to one month, the month being accounted for by the Tithi window; any 19 consecutive years contain 6, 7 or 8 adhikamasa years, and not always 7.", "quantifier": "every pair of years from 640", "why_tests_cant": "The quantifier ranges over unboundedly many inputs; the repo's tests sample a few dozen literals.", "anchors": ["suriya_year.go:Is_Adhikamasa", "suriya_year.go:Would_Be_Adhikamasa", "suriya_year.go:AdhikamasaCyclePos"]}
{"id": "C09", "title": "A year is common, adhikavara or adhikamasa, never both, and YearLength says which", "statement": "With UseExceptions = false no year is both adhikamasa and adhikavara; YearLength() is 384 iff adhikamasa, 355 iff adhikavara, 354 otherwise. With the shipped exceptions table the same holds. With an arbitrary user-edited table exclusivity can fail (witness).", "quantifier": "every year, both settings of UseExceptions, every exceptions table", "why_tests_cant": "The quantifier ranges over unboundedly many inputs; the repo's tests sample a few dozen literals.", "anchors": ["suriya_year.go:Is_Adhikavara", "suriya_year.go:YearLength", "suriya.go:AdhikavaraExceptions"]}
{"id": "C10", "title": "Would_Be_Adhikavara is the missing-tithi rule, except at the 126 boundary", "statement": "For y >= 638, Would_Be_Adhikavara() holds iff the year from Horakhun(y) to Horakhun(y+1) gains only 5 tithis over its days instead of 6, except exactly when the year is leap and Avoman = 126, where it holds although 6 are gained. The source comment 'both <= and < seems to work' is false: 3577 is the first year where they differ.", "quantifier": "every year y >= 638", "why_tests_cant": "The quantifier ranges over unboundedly many inputs; the repo's tests sample a few dozen literals.", "anchors": ["suriya_year.go:Would_Be_Adhikavara"]}
{"id": "C11", "title": "A suppressed adhikavara is carried to the next year, none is lost or doubled", "statement": "Without the exceptions, for y >= 640: if an adhikamasa year would be adhikavara, the next year is adhikavara. Over any span the number of adhikavara years equals the number of would-be years up to the carry at both ends, except at the boundary years of C10, where the exact surplus is stated.", "quantifier": "every span of years from 640", "why_tests_cant": "The quantifier ranges over unboundedly many inputs; the repo's tests sample a few dozen literals.", "anchors": ["suriya_year.go:Is_Adhikavara", "suriya_year.go:Has_Carried_Adhikavara"]}
{"id": "C12", "title": "DeltaAdhikavara is exact and never -1", "statement": "For y >= 638, without the exceptions or with the table as shipped, DeltaAdhikavara() is between 1 and 8 (at most 7 without the exceptions), is the distance to the latest earlier adhikavara year, and never -1.", "quantifier": "every year y >= 638", "why_tests_cant": "The quantifier ranges over unboundedly many inputs; the repo's tests sample a few dozen literals.", "anchors": ["suriya_year.go:DeltaAdhikavara"]}
{"id": "C13", "title": "Cycle positions", "statement": "AdhikavaraCyclePos is in 1..57 and AdhikamasaCyclePos in 1..19 for every year; from 1414 (resp. 1794) on each year's position is the successor of the previous year's modulo the cycle with 1984 at position 1; before that the position runs backwards (witness).", "quantifier": "every year", "why_tests_cant": "The quantifier ranges over unboundedly many inputs; the repo's tests sample a few dozen literals.", "anchors": ["suriya_year.go:AdhikavaraCyclePos", "suriya_year.go:AdhikamasaCyclePos"]}
{"id": "C14", "title": "UseExceptions changes only 1994-1997", "statement": "Switching UseExceptions on changes Is_Adhikavara only for 1994 (true to false) and 1997 (false to true); CalculatePreviousKattika changes, by exactly one day, only for 1995, 1996 and 1997; AsalhaPuja only for 1994, 1995 and 1996.", "quantifier": "every year", "why_tests_cant": "The quantifier ranges over unboundedly many inputs; the repo's tests sample a few dozen literals.", "anchors": ["suriya.go:UseExceptions,AdhikavaraExceptions", "helpers.go:CalculatePreviousKattika", "suriya_year.go:AsalhaPuja"]}
{"id": "C15", "title": "Kattika stepping is consistent with YearLength", "statement": "For every year y and either setting of UseExceptions, CalculatePreviousKattika terminates, returns a UTC midnight, CalculatePreviousKattika(2016) is 2015-11-25, and CalculatePreviousKattika(y+1) is CalculatePreviousKattika(y) plus YearLength(y) days.", "quantifier": "every integer year, both directions of stepping", "why_tests_cant": "The quantifier ranges over unboundedly many inputs; the repo's tests sample a few dozen literals.", "anchors": ["helpers.go:CalculatePreviousKattika", "suriya_year.go:YearLength"]}
{"id": "C16", "title": "The Kattika date has a closed form and stays on the full moon", "statement": "For every y from 640 to 4098 except 3578 (where it is a day later) CalculatePreviousKattika(y) equals a closed form in Horakhun, Tithi and the carry (answering the TODO in helpers.go); beyond, it is off by exactly the number of surplus adhikavara days of C11.", "quantifier": "every year y >= 640", "why_tests_cant": "The quantifier ranges over unboundedly many inputs; the repo's tests sample a few dozen literals.", "anchors": ["helpers.go:CalculatePreviousKattika (TODO comment)"]}
{"id": "C17", "title": "The previous Kattika lies in the previous solar year", "statement": "CalculatePreviousKattika(y) has Year() = y-1 for every y in 631..4116, and not for 630 or 4117.", "quantifier": "every year of 631..4116 and the two neighbours", "why_tests_cant": "The property ends exactly at accumulated drift of whole months.", "anchors": ["helpers.go:CalculatePreviousKattika"]}
{"id": "C18", "title": "Two independent routes to Asalha Puja agree", "statement": "For every y in 640..4098 except 3578, AsalhaPuja() is the same civil day as HorakhunToDate of the SuriyaDay with that year's Asalha full-moon day number (103, plus 1 for an uncarried adhikavara, plus 30 for an adhikamasa year with Tithi >= 24) and the lunar age on it is 14 or 15, i.e. full moon.", "quantifier": "every year in 640..4098, the whole range in which the drift of C16 is zero except 3578", "why_tests_cant": "The quantifier ranges over unboundedly many inputs; the repo's tests sample a few dozen literals.", "anchors": ["suriya_year.go:AsalhaPuja", "suriya_day.go:SuriyaDay.Init", "helpers.go:HorakhunToDate"]}
{"id": "C19", "title": "HorakhunToDate is an exact day count", "statement": "For every horakhun with |horakhun| <= 10^15, with int64 Duration arithmetic and the float64 loop test, the loop terminates without overflow and the result is exactly 1963-07-05T23:59:59Z plus (horakhun - 484049) days; so it is injective, strictly increasing and successive days are 24h apart.", "quantifier": "every int64 horakhun up to 10^15 in magnitude", "why_tests_cant": "Step boundaries and overflow are at multiples of 103240 days; tests try 15 values.", "anchors": ["helpers.go:HorakhunToDate", "suriya.go:horakhunRef"]}
{"id": "C20", "title": "NextUposatha alternates and advances 14 or 15 days", "statement": "For every UposathaMoon value: the next phase is full iff the phase was new, otherwise new; the date advances by exactly U_Days days with U_Days in {14,15}, 15 for a full moon; for a new moon U_Days = 14 iff M_Days = 29; Status and Calendar are 0, Source and Comments empty.", "quantifier": "every UposathaMoon value (all field values, any date)", "why_tests_cant": "The quantifier ranges over unboundedly many inputs; the repo's tests sample a few dozen literals.", "anchors": ["uposatha_moon.go:NextUposatha"]}
{"id": "C21", "title": "A lunar year closes on the next Kattika", "statement": "Starting from the Kattika moon that GenerateSolarYear(y) starts from, 24 applications of NextUposatha (26 in an adhikamasa year) reach exactly the moon that GenerateSolarYear(y+1) starts from (date, season counters, month, lunar year).", "quantifier": "every year whose previous Kattika is 1 to 118 days before 1 January, both exception settings; hence every year in 631..4115", "why_tests_cant": "The quantifier ranges over unboundedly many inputs; the repo's tests sample a few dozen literals.", "anchors": ["uposatha_moon.go:NextUposatha", "cal_day.go:GenerateSolarYear", "helpers.go:CalculatePreviousKattika"]}
{"id": "C22", "title": "Season and month numbering along the generated chain", "statement": "Along the moons generated for a lunar year: months run 1..8,(13),9..12, each month has one new and one full moon, their U_Days sum to M_Days; S_Number runs 1..S_Total in each season, S_Total is 8, or 10 in the hot season of an adhikamasa year; seasons run 1,2,3; LunarYear is y+543.", "quantifier": "every year with previous Kattika 1..118 days before 1 January", "why_tests_cant": "Depends on the phase of every year's flags relative to the solar year.", "anchors": ["uposatha_moon.go:NextUposatha"]}
{"id": "C23", "title": "GenerateSolarYear yields exactly the uposathas of the year, with no gap at year seams", "statement": "For every run of consecutive valid years, the uposathas of the years concatenated form one unbroken NextUposatha chain (up to Status = 2), each dated in its own year, 24 or 25 per year. When the Kattika a year is counted from falls into that year itself, that full moon is among the uposathas of no year; so the range is sharp above: the full moon of 2 January 4117 is missing (witness).", "quantifier": "every interval of years with previous Kattika in the preceding solar year", "why_tests_cant": "The quantifier ranges over unboundedly many inputs; the repo's tests sample a few dozen literals.", "anchors": ["cal_day.go:GenerateSolarYear"]}
{"id": "C24", "title": "Each solar year has each major event exactly once, and Asalha Puja agrees with AsalhaPuja()", "statement": "For every year whose previous and own Kattika are from 74 days before to 28 days after the 1 January they precede (all of 1290..5834 with the shipped settings) GenerateSolarYear emits exactly one Magha, Vesakha, Asalha, First day of Vassa, Pavarana and Last day of Vassa; Asalha is AsalhaPuja(), First day of Vassa the day after, Pavarana and the last day 89 days after Asalha. In every year whatsoever the major events are exactly those announced by that year's own uposathas, none from a neighbouring year. The range is sharp: for 1289 there are two Magha Pujas, and 5835 has no Pavarana and no Last day of Vassa, which would be 1 January 5836 and is not among the events of 5836 either (witnesses).", "quantifier": "every year with the stated Kattika offset (the announcement: every year), both exception settings", "why_tests_cant": "The quantifier ranges over unboundedly many inputs; the repo's tests sample a few dozen literals.", "anchors": ["cal_day.go:GenerateSolarYear", "uposatha_moon.go:NextUposatha", "suriya_year.go:AsalhaPuja"]}
{"id": "C25", "title": "Half moons fall eight days after each uposatha, between uposathas", "statement": "In the events of any year every HalfMoon is exactly 8 days after an uposatha of the chain with waxing after new and waning after full; it is strictly between that uposatha and the next; each uposatha of the chain whose 8th day is in the year has one. Across the year seam a half moon is lost only when the next year's Kattika is 8 days or less before 1 January (witness 3571/3572).", "quantifier": "every year", "why_tests_cant": "The quantifier ranges over unboundedly many inputs; the repo's tests sample a few dozen literals.", "anchors": ["cal_day.go:GenerateSolarYear"]}
{"id": "C26", "title": "GenerateSolarYear terminates for every year", "statement": "The loop of GenerateSolarYear ends for every year and setting, after at most one more step than the number of 14-day intervals from the previous Kattika to the end of the year.", "quantifier": "every integer year", "why_tests_cant": "The quantifier ranges over unboundedly many inputs; the repo's tests sample a few dozen literals.", "anchors": ["cal_day.go:GenerateSolarYear"]}
{"id": "C27", "title": "GetCalDays returns strictly increasing days, one per civil day", "statement": "For every from, to, time zone of from/to, exceptions setting and file contents, the result of GetCalDays is strictly increasing in Date and no two entries are on the same UTC day; the result does not depend on the sorting algorithm.", "quantifier": "all ranges, all file-system contents, every correct sorting routine", "why_tests_cant": "The quantifier ranges over unboundedly many inputs; the repo's tests sample a few dozen literals.", "anchors": ["cal_day.go:GetCalDays", "cal_day.go:mergeIntoCalDays", "cal_day.go:findCalDay"]}
{"id": "C28", "title": "GetCalDays is sound and complete", "statement": "For every range, the events found in the returned CalDays are exactly the astro moons in range plus the generated events of the covered years in range: every event appears in the entry of its day (moons: the last one of its kind on that day), and nothing else appears.", "quantifier": "all ranges and file contents", "why_tests_cant": "The quantifier ranges over unboundedly many inputs; the repo's tests sample a few dozen literals.", "anchors": ["cal_day.go:GetCalDays", "cal_day.go:mergeIntoCalDays"]}
{"id": "C29", "title": "Narrowing the range only drops days", "statement": "For UTC ranges [f',t'] inside [f,t] the uposatha, half-moon and major-event content of GetCalDays(f',t') is that of GetCalDays(f,t) restricted to the days in [f',t'].", "quantifier": "all nested UTC ranges, of any time of day", "why_tests_cant": "The quantifier ranges over unboundedly many inputs; the repo's tests sample a few dozen literals.", "anchors": ["cal_day.go:GetCalDays"]}
{"id": "C30", "title": "GetAstroMoons returns exactly the in-range moons up to the first missing year file", "statement": "For every file system and range GetAstroMoons returns, in order, the moons with date in [from,to] of the successful error-free files of the years from from.Year() up to the first missing file; it is empty if from.Year() > to.Year(). Hence completeness fails when the range starts before the first available year (1899 witness).", "quantifier": "all ranges and all file contents", "why_tests_cant": "The quantifier ranges over unboundedly many inputs; the repo's tests sample a few dozen literals.", "anchors": ["astro_moon.go:GetAstroMoons"]}
{"id": "C31", "title": "The embedded astro data is consistent", "statement": "In all 141 embedded files: every code is 0..3, timestamp equals dateTimeISO, each moon's UTC year is the file's year, moons are strictly chronological, phases follow new, waxing, full, waning cyclically inside each file, no two moons share a UTC day. Across file boundaries the cycle breaks at 18 seams (moons missing from the data).", "quantifier": "all records of the embedded data set", "why_tests_cant": "The tests never touch the data.", "anchors": ["data.go:_escData", "data/astro/*.json"]}
{"id": "C32", "title": "With the embedded data GetAstroMoons never panics and is complete inside the data range", "statement": "With the embedded data GetAstroMoons does not panic for any from and to, and for UTC ranges whose first year is at least 1900 it returns exactly all embedded moons between from and to.", "quantifier": "every from and to", "why_tests_cant": "The quantifier ranges over unboundedly many inputs; the repo's tests sample a few dozen literals.", "anchors": ["astro_moon.go:GetAstroMoons", "data.go"]}
{"id": "C33", "title": "Astro moons of the last day are lost when toDate is a midnight", "statement": "For a toDate at UTC midnight (what the command line always passes) every astro moon later on that day is missing from the result, although uposathas of that day are included (witness: a moon of the embedded data).", "quantifier": "every midnight toDate", "why_tests_cant": "The quantifier ranges over unboundedly many inputs; the repo's tests sample a few dozen literals.", "anchors": ["astro_moon.go:GetAstroMoons", "suriya/suriya.go:cliInit"]}
{"id": "C34", "title": "RalToDegree then DegreeToRal loses at most one arcminute", "statement": "For 0 <= x <= 10^6, 0 <= y < 30, 0 <= z < 60, DegreeToRal(RalToDegree(x,y,z)) in binary64 arithmetic is (x,y,z') with z' = z or z' = z-1, and z' = z-1 whenever z is not a multiple of 3. The two functions are not inverse: (0,0,1) gives (0,0,0), and a multiple of 3 can fail too, (2,19,33) gives (2,19,32) (witnesses).", "quantifier": "every x up to 10^6, y < 30, z < 60", "why_tests_cant": "The quantifier ranges over unboundedly many inputs; the repo's tests sample a few dozen literals.", "anchors": ["helpers.go:DegreeToRal", "helpers.go:RalToDegree"]}
{"id": "C35", "title": "DegreeToRal is in range and accurate for non-negative degrees and 30 degrees low for negative ones", "statement": "For every finite float64 0 <= d <= 2^50, DegreeToRal(d) = (x,y,z) with x >= 0, 0 <= y < 30, 0 <= z < 60, 30x+y = floor(d), and d minus 30x+y+z/60 in [-2^-53, 1/60). For -2^50 <= d < 0 (normal magnitudes) the written angle is within an arcminute below d, less a further 30 degrees unless floor(d) is a multiple of 30. RalToDegree of the result is within 1/60+1/9999 degree of d, for d up to 10^6.", "quantifier": "every float64 in [-2^50, 2^50]", "why_tests_cant": "There are about 10^19 such floats.", "anchors": ["helpers.go:DegreeToRal"]}
{"id": "C36", "title": "MeanSun is within an arcminute of the exact mean longitude from New Year's day on, and 30 degrees low before", "statement": "With the exact mean longitude 360*((800h-373)/292207 - (year-638)) for day count h: when it is not negative (so on and after the year's New Year's day) MeanSun is finite and between 4 minutes + 1/10000 degree and 3 minutes below it; when it is negative MeanSun is a further 30 degrees low.", "quantifier": "every year in 638..10^12, every lunar day number 0..900000, every sine routine", "why_tests_cant": "The quantifier ranges over unboundedly many inputs; the repo's tests sample a few dozen literals.", "anchors": ["suriya_day.go:SuriyaDay.Init"]}
{"id": "C37", "title": "NormalizeDegree", "statement": "For every finite float64 360 < d <= 2^50 the result is in [0,360) and differs from d by exactly a positive multiple of 360; every finite d <= 360 is returned unchanged, so 360 and negative degrees are not normalized (witness).", "quantifier": "every finite float64 up to 2^50", "why_tests_cant": "The quantifier ranges over unboundedly many inputs; the repo's tests sample a few dozen literals.", "anchors": ["helpers.go:NormalizeDegree"]}
{"id": "C38", "title": "True positions stay near the mean ones", "statement": "For every sine routine bounded by 1+10^-6 on [-100,100], and Go's math.Sin is one: all five positions are finite; TrueSun is within 135/60 + 1/9999 degrees of MeanSun; MeanMoon is TrueSun + (Avoman + Avoman/25)/60 + 12 Tithi - 0.6666 modulo 360 within 10^-9, at most 360; TrueMoon is within 297/60 degrees of MeanMoon; Raek is TrueMoon/13.3333 + 1 within 10^-9 and between -4.2 and 28.4. Raek does leave 1..28 on both sides (witnesses with Go's sine).", "quantifier": "every year in 638..10^12, every lunar day number 0..400, every sine routine bounded by 1+10^-6", "why_tests_cant": "The quantifier ranges over unboundedly many inputs; the repo's tests sample a few dozen literals.", "anchors": ["suriya_day.go:SuriyaDay.Init"]}
{"id": "C39", "title": "SuriyaDay counts days linearly and agrees with the year record", "statement": "SuriyaDay.Init(y,d) keeps the year and day given, with BE_Year y+543 and CS_Year y-638; its Horakhun is Horakhun(y) + d - Tithi(y), so successive days have successive Horakhun; for d = Tithi(y) its Horakhun, Uccabala, Avoman, Masaken, Tithi and Kammacubala are the year's own; for Horakhun >= 0, 692*(30*Masaken+Tithi)+Avoman = 703*Horakhun+650; the same Horakhun reached from two years gives the same Avoman, Masaken, Tithi and Uccabala.", "quantifier": "every year >= 638 and every day number with non-negative Horakhun", "why_tests_cant": "The quantifier ranges over unboundedly many inputs; the repo's tests sample a few dozen literals.", "anchors": ["suriya_day.go:SuriyaDay.Init"]}
{"id": "C40", "title": "CalDay accessors behave as optional fields under any sequence of operations", "statement": "Starting from an empty CalDay, after any sequence of Set and AddToDay calls each moon slice has at most one element, Get returns the last moon set of that kind (the zero moon if none), the major events and events are exactly those added, in order, and Date is that of the last added event.", "quantifier": "every finite sequence of operations", "why_tests_cant": "The quantifier ranges over unboundedly many inputs; the repo's tests sample a few dozen literals.", "anchors": ["cal_day.go:SetUposathaMoon etc.", "*.go:AddToDay"]}
{"id": "C41", "title": "Copies of a CalDay are not independent", "statement": "In a memory model with Go slices, setting a moon on a copy of a CalDay that already has one changes the original, while setting it on a copy of one without leaves the original unchanged; GetCalDays never returns two entries sharing storage.", "quantifier": "all CalDay values and copies", "why_tests_cant": "The quantifier ranges over unboundedly many inputs; the repo's tests sample a few dozen literals.", "anchors": ["cal_day.go:SetUposathaMoon"]}
{"id": "C42", "title": "AddHalfMoonDays", "statement": "For every slice of days: the given days are an unchanged prefix of the result, followed by one day for each uposatha day with phase new or full, in order, 8 days later at the same time of day, holding only the half moon waxing resp. waning; applying it twice duplicates days (witness).", "quantifier": "every slice of CalDays", "why_tests_cant": "The quantifier ranges over unboundedly many inputs; the repo's tests sample a few dozen literals.", "anchors": ["cal_day.go:AddHalfMoonDays"]}
{"id": "C43", "title": "caldays output groups every day under its own year exactly once", "statement": "For every GetCalDays result, the map built by the caldays command has a key per year occurring, the group of a year is the chronologically ordered days of that year, and the groups concatenated in year order are the whole result; key order in the JSON is the numeric order when all years have four digits.", "quantifier": "every result list", "why_tests_cant": "The quantifier ranges over unboundedly many inputs; the repo's tests sample a few dozen literals.", "anchors": ["suriya/suriya.go:actionCalDays"]}
{"id": "C44", "title": "ical output", "statement": "The ical command emits for each day, in date order, one event for the uposatha moon, one for the half moon, one for each major event and event and none for astro moons; DTEND is DTSTART + 24h, the summary is the String() of the source.", "quantifier": "every UTC range", "why_tests_cant": "The quantifier ranges over unboundedly many inputs; the repo's tests sample a few dozen literals.", "anchors": ["suriya/suriya.go:actionIcal", "calendar_event.go:icalEvent"]}
{"id": "C45", "title": "Embedded files: concurrent first reads", "statement": "For every number of concurrent callers and every interleaving, the asset is decoded at most once and every completed FSByte call for a well-formed asset returns exactly its decoded content without error. For a corrupt asset only the first caller gets the error; later callers get a nil error with partial data (witness).", "quantifier": "all schedules of all finite numbers of callers", "why_tests_cant": "Interleavings of unboundedly many callers.", "anchors": ["data.go:_escStaticFS.prepare", "data.go:FSByte"]}
{"id": "C46", "title": "Year file names are injective", "statement": "The name GetAstroMoons reads for a year denotes the file of that year only: different years give different cleaned paths, and a lookup succeeds iff the year is in 1900..2040.", "quantifier": "every integer year", "why_tests_cant": "The quantifier ranges over unboundedly many inputs; the repo's tests sample a few dozen literals.", "anchors": ["astro_moon.go:GetAstroMoons", "data.go:FSByte"]}
{"id": "C47", "title": "Moon summaries determine what they display", "statement": "UposathaMoon.String() is empty iff the phase is empty, and so are those of half and astro moons; that of a day is the summaries of the moons last set, comma-separated in a fixed order; two generated uposathas (phase new/full, season 1..3, positive counters) with the same summary have the same phase, U_Days, season, S_Number and S_Total. Along a lunar year the summaries are three fixed lists: for a common year, one with an extra day, one with an extra month. Half moons after new and full moons read Waxing Moon and Waning Moon, embedded astronomical ones New, Waxing, Full or Waning Moon by their code. The strings.Title inside them makes the small letters at the start of a word capital and changes nothing else of an ASCII text.", "quantifier": "all field values", "why_tests_cant": "The quantifier ranges over unboundedly many inputs; the repo's tests sample a few dozen literals.", "anchors": ["uposatha_moon.go:UposathaMoon.String"]}
{"id": "C48", "title": "Name tables", "statement": "MonthToInt, SeasonToInt, CalendarToInt, StatusToInt are injective on the known names; every other string maps to 0, which for calendars and statuses is indistinguishable from mahanikaya and draft.", "quantifier": "every string", "why_tests_cant": "The quantifier ranges over unboundedly many inputs; the repo's tests sample a few dozen literals.", "anchors": ["helpers.go:MonthToInt,SeasonToInt,CalendarToInt,StatusToInt,SeasonName"]}
{"id": "C49", "title": "Every generated uposatha is at the right moon", "statement": "Without the exceptions, for every year in 640..4097, every full-moon uposatha of GenerateSolarYear has lunar age 14, 15 or 16 and every new-moon uposatha age 28, 29 or 0 by the traditional reckoning of its Horakhun. With the shipped exceptions the same holds but for full moons of age 13 (in 1996).", "quantifier": "every uposatha of every year in the stated range", "why_tests_cant": "The quantifier ranges over unboundedly many inputs; the repo's tests sample a few dozen literals.", "anchors": ["cal_day.go:GenerateSolarYear", "uposatha_moon.go:NextUposatha"]}
{"id": "C50", "title": "Date flags accept exactly the dates of the calendar and choose the range asked for", "statement": "A -from/-to flag is accepted iff it is YYYY-MM-DD with a month 1..12 and a day of that month; the date used is that civil day's midnight UTC, and printing it gives the flag back. With both flags empty the range is 1 January to 31 December of the current year; with only one flag the other end is the first or last day of the current year.", "quantifier": "every string given as a flag, every current time", "why_tests_cant": "The quantifier ranges over unboundedly many inputs; the repo's tests sample a few dozen literals.", "anchors": ["suriya/suriya.go:cliInit"]}
{"id": "C51", "title": "The caldays command prints for every accepted pair of dates and its JSON loses nothing", "statement": "With the embedded data the caldays command prints its JSON (no panic, no error exit, no endless loop) exactly when both date flags are absent or accepted, the current year being in 0..9999; and for any settings, files and flags, two runs that print the same text found the same calendar days, in all fields.", "quantifier": "all pairs of flag strings, all settings, all file contents", "why_tests_cant": "The quantifier ranges over unboundedly many inputs; the repo's tests sample a few dozen literals.", "anchors": ["suriya/suriya.go:actionCalDays", "cal_day.go:CalDay"]}
{"id": "C52", "title": "The table of years written by utils/years-csv.go", "statement": "For every range of years and setting of UseExceptions the program's table is produced (every search and loop ends) and, read back by splitting at newlines and semicolons, is the header followed by exactly one line of 14 fields per year in order, holding that year's values, the distances DeltaAdhikamasa/DeltaAdhikavara for intercalary years, x for a suppressed adhikavara, AsalhaPuja as a date, and OK or FAIL according to the published date; from 639 on the distances are 2 or 3, resp. at most 8, never both. For 1970..2041 the text is utils/years.csv byte for byte. Against the 47 published dates Asalha Puja is one day late exactly in 1978, 1984-1986, 1989 and, without exceptions, 1994-1996. The program leaves exactly that text in years.csv and touches nothing else; when the file cannot be made it ends with status 2, when there is no room a beginning is left, a message printed and the status 0.", "quantifier": "every range of years, either setting or any user table", "why_tests_cant": "The quantifier ranges over unboundedly many inputs; the repo's tests sample a few dozen literals.", "anchors": ["utils/years-csv.go:yearsCsv,main", "utils/years.csv", "suriya_year.go:AsalhaPuja"]}
{"id": "C53", "title": "True positions follow the sine equations; the Sun's has the wrong sign past 80 degrees", "statement": "For every day 0..400 of every year 638..10^12 and every sine routine accurate to 10^-6 (Go's is accurate to 10^-9 on |x| <= 100; its constants are the doubles nearest to the published decimals): TrueMoon is MeanMoon - 296' sin(MeanMoon - apogee) up to 1/9000 degree, the apogee being 2' past 360/3232 of the day's Uccabala; TrueSun is MeanSun + 134' sin|MeanSun - 80| rounded down to minutes. Hence TrueSun agrees with the equation of the centre up to 80 degrees and is off by twice the correction beyond: more than four degrees on day 195 of 1963.", "quantifier": "all days of all years of the era, all accurate sine routines", "why_tests_cant": "The quantifier ranges over unboundedly many inputs; the repo's tests sample a few dozen literals.", "anchors": ["suriya_day.go:103-112", "suriya_day.go:142-186"]}
{"id": "C54", "title": "The embedded files, used through every accessor", "statement": "After any history of calls by one goroutine: FSByte, FSMustByte, FSString and FSMustString of a well-formed file return its content as changed by all callers' writes since the file was first looked up (the returned slice is shared, so one caller's write reaches all others); without writes, the content itself; an unknown name gives ErrNotExist, or a panic from the Must variants. Every open handle reads the file once from start to end in order whatever is done with other handles or closed. Stat reports the base of the first spelling anyone used, which may be \"..\". A call of the concurrent model running alone does exactly this. The names are what the documentation of path.Clean and path.Base says: the elements worked off by its rules in any order, and the last element. Dir only concatenates its prefix: it needs the slash and does not confine.", "quantifier": "all tables of assets, all histories of operations", "why_tests_cant": "The quantifier ranges over unboundedly many inputs; the repo's tests sample a few dozen literals.", "anchors": ["data.go:48-185"]}
{"id": "C55", "title": "Texts of a year, of an angle, and the malformed simple table", "statement": "For every year record SuriyaValuesString is the nine labelled lines in order and determines the record; String determines the year; DegreeToRalString determines rasi, angsa and lipda. yearsCsvSimple (seven verbs, nine arguments) always ends, and for every range no line but the header has the nine columns announced: Kammacubala is printed as a formatting error and Avoman, Tithi are prefixed to the next year's line.", "quantifier": "all records, all angles, all ranges and settings", "why_tests_cant": "The quantifier ranges over unboundedly many inputs; the repo's tests sample a few dozen literals.", "anchors": ["suriya_year.go:53-56", "suriya_year.go:92-105", "helpers.go:25-28", "utils/years-csv.go:18-54"]}
{"id": "C56", "title": "The texts in data.go decode to the files the other claims are about", "statement": "For every year 1900..2040 the compressed text in data.go, through base64, gzip (with its checks) and JSON, is a file of the declared size that reads as exactly the list of moons used by the claims about astronomical moons; in every record time stamp, date (in British time) and phase name agree with each other and with the year of the file. Reading any year after any history of calls without writes, or in any interleaving of concurrent calls, gives that list, and a missing file for every other year.", "quantifier": "all years, all histories and interleavings of calls", "why_tests_cant": "The quantifier ranges over unboundedly many inputs; the repo's tests sample a few dozen literals.", "anchors": ["data.go:48-71", "data.go:187-3524", "astro_moon.go:GetAstroMoons"]}
{"id": "C57", "title": "What is packed comes out again and damage to an embedded file is noticed", "statement": "Decoding an asset inverts base64 (with lines broken anywhere) and gzip with stored blocks, for every content. An asset cut short anywhere gives no header or a failing read, never a shorter content, whatever non-base64 text follows the cut; this holds of all embedded files. Contents differing within 32 consecutive bits never share a CRC, so such damage with the checksum intact makes the read fail. Changes to the time and system bytes of the header are not noticed.", "quantifier": "all contents, all divisions into blocks and lines, all cuts, all burst errors", "why_tests_cant": "The quantifier ranges over unboundedly many inputs; the repo's tests sample a few dozen literals.", "anchors": ["data.go:48-71"]}
{"id": "C58", "title": "The moon files are read as the JSON grammar and the field names say", "statement": "A text is accepted exactly when it is one JSON value by the grammar, whose values fit the fields they name; the result is the one value the text determines: fields matched without regard to case, the last non-null value of a name counting, absent fields zero, numbers integers within int64, times RFC 3339. Whatever the library prints as JSON is read back with the meaning printed, and a printed UTC time as itself.", "quantifier": "all byte strings", "why_tests_cant": "The quantifier ranges over unboundedly many inputs; the repo's tests sample a few dozen literals.", "anchors": ["aeris_moon.go:9-25", "astro_moon.go:57-68"]}
{"id": "C59", "title": "The decoders of the embedded files are those of the standards", "statement": "With base64 (RFC 4648), DEFLATE (RFC 1951: stored, fixed and dynamic blocks, canonical prefix codes, overlapping copies), CRC-32 (remainder of polynomials) and gzip (RFC 1952: optional header fields, several members) given as relations between texts and contents, each decoder accepts exactly the texts of its format and yields the content they have. The relations follow the RFCs with the choices of Go's packages written into them: line ends and left-over bits in base64 are ignored, header names have at most 511 bytes, reserved header flags are ignored, any code may be empty or a single one-bit word; every other text gives no header or a failing read. No compressed text is the beginning of another, and the embedded files have by these relations and the JSON grammar the moons the other claims use.", "quantifier": "every byte string as text and as content", "why_tests_cant": "The quantifier ranges over unboundedly many inputs; the repo's tests sample a few dozen literals.", "anchors": ["data.go:48-71"]}
{"id": "C60", "title": "Exit status, standard output and the --output file of the commands", "statement": "Without --output a run of caldays is the command of C43 to C58. With it, a successful run leaves in the file exactly the text it would have printed, without the line end, whatever the file held before, and changes no other file and not standard output. A failing run changes no file, except that a file that was opened but could not be written in full holds a proper beginning of the text; so the old contents can be lost to a failing run (witness). With the embedded data the program always ends with status 0 or 1, and with 0 exactly if both dates are accepted and the file can be opened and written. Standard output is a JSON text exactly if the run succeeded, since the message about a bad date is printed there as well. The clock is read once for each absent date: the default range goes from the year of the first reading to that of the second, which can be two years (witness). Of two bad dates the first is reported, and nothing else happens. The ical command writes its text and fails in the same way, with status 2 exactly if reading the astronomical data panics.", "quantifier": "all flags, file contents, settings, clock readings and (except for the status) contents of the embedded files; any text from the ical package", "why_tests_cant": "The quantifier ranges over unboundedly many inputs; the repo's tests sample a few dozen literals.", "anchors": ["suriya/suriya.go:cliInit", "suriya/suriya.go:actionCalDays", "suriya/suriya.go:actionIcal"]}
{"id": "C61", "title": "The ical command writes an iCalendar stream that says exactly the events", "statement": "SpecIcal.v writes RFC 5545 as relations: content lines of at most 75 octets that end with CR LF, a calendar that encloses its properties and at least one event, dates, UTC times and escaped texts, required properties exactly once, different UIDs; a stream has at most one reading. For dates in UTC with years 0 to 9999, every configuration and UIDs that are different plain texts of at most 71 octets, the text is a calendar named Uposatha Moondays (Mahānikāya) whose events are, up to the order within a day, one for each generated event from its day to the next with its summary, sorted by day, with the UIDs and times drawn, provided there is an event and none is on 9999-12-31, whose end has a year of five digits. With the default configuration no event is on that day, whatever the range. So a successful run of the command leaves such a calendar in the file or on standard output, or, if the range has no event, a text that is no calendar of RFC 5545 (witness).", "quantifier": "All configurations, ranges of dates with years 0 to 9999, flags, UIDs, times of writing and surroundings.", "why_tests_cant": "That the text of every range is well formed, that no summary ever needs an escape or a folded line, and that nothing else can be read from it, is a statement about infinitely many texts; the recorded calendar is one of them.", "anchors": ["suriya/suriya.go:89-190", "calendar_event.go:17-28", "suriya/testdata/mahanikaya-from-2013-01-01-to-2017-12-31.ical"]}
{"id": "C62", "title": "An opened embedded file is a seekable reader", "statement": "Whatever was done before and is done afterwards - writes to the shared bytes, other handles, other files, closing it - an embedded file opened by FS(false) reads and seeks like one sequence of bytes, the file as it then is, starting at position 0: a Read gives the next bytes, as many as asked unless the file ends, or the end of the file; a Seek from the start, the position or the end goes to that place or, if it is negative or beyond the largest int64, fails and stays; any other kind of Seek fails and stays. These moves are determined. For every embedded file, seeking to the end tells the size that Stat reports. Stat tells the three directories from the files, gives directories the time 0, and the files of the years times on 8 August 2015 in the order of the years. A directory lists nothing although files below it can be opened (witness).", "quantifier": "all tables of assets, all histories of operations with int64 offsets", "why_tests_cant": "The quantifier ranges over unboundedly many inputs; the repo's tests sample a few dozen literals.", "anchors": ["data.go:73-126"]}
{"id": "C63", "title": "The embedded files taken from the disk", "statement": "With useLocal, whatever name is given and whatever is on the disk, only the 144 paths of the table are ever opened, and Dir opens its prefix and the name joined. If the files of the years are on the disk as they were embedded, then FSByte, FSMustByte, FSString and FSMustString give the same with and without useLocal for every name that does not mean one of the three directories, names that are not in the table included. The paths of the directories are absolute, so the directory of the machine is opened and not that of the working directory (witness); reading a directory fails while the embedded one reads as empty; FSString may return the beginning of a file together with an error (witness); FSByte never closes the file it opened, and nothing else is left open.", "quantifier": "all names, all disks, all histories without writes", "why_tests_cant": "The quantifier ranges over unboundedly many inputs; the repo's tests sample a few dozen literals.", "anchors": ["data.go:40-46", "data.go:81-83", "data.go:134-185"]}
{"id": "C64", "title": "Calculated moons stay close to the astronomical ones", "statement": "With the configuration as shipped, every moon of the embedded astronomical files has a calculated moon of the same phase close to it: for a new or full moon an uposatha from two days before to one day after, for a quarter a half moon from one day before (two with the exceptions in use) to two days after. Conversely every uposatha and half moon calculated for a day from 2 January 1902 to 14 May 2033 has an astronomical moon of its phase within the same bounds, save in 1970 and on 30 December, 31 December and 1 January. The bounds are met on both sides, and both exclusions are needed: the data has no full moon for the one of 19 June 1970 nor for the one of 31 December 2009. From 1902 to 2033 the calculated moons are one a day at most and at least six days apart, and so are the astronomical ones of the data, so no moon has two partners.", "quantifier": "all moons of the embedded data set; all calculated moons of 131 years; both settings of the exceptions", "why_tests_cant": "The tests compare no calculated moon with an astronomical one; the claim covers some 13000 moons.", "anchors": ["uposatha_moon.go:NextUposatha", "cal_day.go:GenerateSolarYear", "half_moon.go:HalfMoon", "astro_moon.go:GetAstroMoons", "data.go:_escData"]}
{"id": "C65", "title": "The caldays output member by member", "statement": "Whatever the command prints is, by the grammar of RFC 8259, one object: under the numeral of each year in which a listed day falls, in the order of the numerals, the array of that year's days in their order. Each day is an object with Date and, unless empty, UposathaMoon, HalfMoon, AstroMoon, MajorEvents and Events in this order, whose elements are objects with exactly the named fields in order; strings, numbers and RFC 3339 times stand for the values of the day. The values determine the days, and from the year 1000 on the order is that of the years.", "quantifier": "all flags, configurations and embedded files", "why_tests_cant": "The quantifier ranges over unboundedly many inputs; the repo's tests sample a few dozen literals.", "anchors": ["suriya/suriya.go:48-87", "cal_day.go:13-20", "uposatha_moon.go:10-26", "half_moon.go:10-13", "event.go:13-18"]}
{"id": "C66", "title": "The calendar computed with int64 arithmetic is exact", "statement": "With every sum, difference and product taken in wrapping int64, years set up in float64 and Time.Add on int64 seconds, the types, lengths and distances of years, CalculatePreviousKattika, AsalhaPuja, GenerateSolarYear and GetCalDays are, for years of magnitude up to 10^11, those of the claims over exact integers, and so is NextUposatha of any moon whose counters are below the largest int64. Beyond, overflow makes the length of a year wrong (witness), and a moon in the largest LunarYear is followed by one in the smallest (witness).", "quantifier": "every year and range up to 10^11, every moon, configuration and file content", "why_tests_cant": "Overflow shows at isolated inputs that no test reaches.", "anchors": ["suriya_year.go:23-206", "helpers.go:75-109", "uposatha_moon.go:NextUposatha", "cal_day.go:GetCalDays,GenerateSolarYear", "astro_moon.go:GetAstroMoons"]}
{"id": "C67", "title": "Asalha Puja keeps to its civil year and moves 13 days later in 800 years", "statement": "Without an edited exceptions table, AsalhaPuja of year y falls in the civil year y for every y of 618..11186, and in the next year for 617 and 11187. Without exceptions, for every y >= 640, its distance in days from 1 January, less the surplus days of C16, differs from 13*(y-640)/800 by at least 159 and at most 195; with the shipped exceptions and no correction, by 158 to 196 for 640..4098.", "quantifier": "every year from 640, every year of 618..11186", "why_tests_cant": "The drift against the civil year shows only over millennia.", "anchors": ["suriya_year.go:AsalhaPuja", "helpers.go:CalculatePreviousKattika"]}
{"id": "C68", "title": "The calendar repeats after exactly 16608000 years, and loses the moon before", "statement": "For y >= 638, each of the 800*692*30 combinations of Kammacubala, Avoman and Tithi belongs to exactly one of any 16608000 consecutive years, so two years agree in the three exactly when that number divides their distance. Without exceptions the types and lengths of years then repeat; the adhikamasa years have no other period, from whatever year on. A full period has 6125521 adhikamasa and 3223416 adhikavara years and, from 640, 6066221046 days, 3726 of them the surplus days of C16. Hence the Kattika date does not keep to the full moon: in 62002 it is at a new moon (witness).", "quantifier": "every year from 638 or 640", "why_tests_cant": "The period is longer than any test could run, and no prefix of it shows that nothing shorter repeats.", "anchors": ["suriya_year.go:Init,Is_Adhikamasa,Is_Adhikavara,YearLength", "helpers.go:CalculatePreviousKattika"]}
{"id": "C69", "title": "The cycle positions tell the type of a year for about the years they were made for", "statement": "A year of 1976..2152 is adhikamasa exactly when its position in the 19 year cycle is 2, 5, 8, 10, 13, 16 or 19 (distances 332-3332); without exceptions a year of 1955..2070 is adhikavara exactly when its position in the 57 year cycle is 1, 6, 11, 17, 22, 26, 33, 37, 42, 47 or 52. Both fail in the years next to these ranges, and no set of positions tells the adhikamasa years from any year on.", "quantifier": "every year of the two ranges; every set of positions", "why_tests_cant": "The patterns hold for all recorded years and fail later.", "anchors": ["suriya_year.go:AdhikamasaCyclePos,AdhikavaraCyclePos", "utils/years-csv.go:56-61"]}
{"id": "C70", "title": "Asking for a range of days in two parts gives the same days", "statement": "For UTC ranges within years whose Kattika moon lies 1..118 days before 1 January, with files holding only moons of their own year and none present after a missing one: the days GetCalDays finds up to the last nanosecond before a midnight, followed by the days it finds from that midnight on, are exactly, in all fields, the days of the whole range. With the shipped exceptions and embedded files this holds for all ranges in 1900..4115. It fails when the first part ends at the midnight before, as ranges of the command line do, and when the range starts before the data (witnesses).", "quantifier": "every UTC range and every midnight inside it, every settings and files with the stated properties", "why_tests_cant": "The quantifier ranges over unboundedly many inputs; the repo's tests sample a few dozen literals.", "anchors": ["cal_day.go:GetCalDays", "astro_moon.go:GetAstroMoons"]}
{"id": "C71", "title": "On every uposatha the positions computed for the day show the moon announced", "statement": "For every day 0..400 of every year 638..10^12 and every sine routine bounded by 1 + 10^-6: the distance of the mean Moon from the Sun is 12 degrees for each of the (703 h + 650)/692 lunar days elapsed at Horakhun h, less 40', up to 0.022 degrees; that of the true Moon up to 4.98. Every day of the era is one of these. Without the exceptions every full-moon uposatha of the years 640..4097 lies 14.08 to 16.24 lunar days into a lunation, every new-moon one -1.16 to 1; with the shipped exceptions from 13.87 resp. -1.37 on. So SuriyaDay puts the Moon from 17 degrees before to 20 after opposition resp. from 20 before to 17 after conjunction, 3 degrees earlier at most with the exceptions. It is not within one lunar day of it (witness: 17 October 1978).", "quantifier": "every uposatha of every year in the stated range and every (year, day) naming its date", "why_tests_cant": "The quantifier ranges over unboundedly many inputs; the repo's tests sample a few dozen literals.", "anchors": ["suriya_day.go:Init", "cal_day.go:GenerateSolarYear"]}
{"id": "C72", "title": "The script that fetched the moon files asks for every year once, ends, and makes at most 22 requests a minute", "statement": "For all arguments and all times the steps take: utils/get-astromoons.sh called as its usage says ends with status 0, asks once for each year from the first to the last in order, leaves the answer for each year in the file GetAstroMoons reads for that year and every other file as it was; with an argument missing it prints the usage, fails and changes nothing. In no 60 seconds it makes more than 22 requests (reached; the comment's 10 and the 750 a day are not kept). The seconds it shows are 0..60. Credentials with & break the address. In the data no file has more than 50 records, and none is on 31 December, the last day asked for, though every other date of the year occurs.", "quantifier": "all years, all credentials, all non-negative durations of the steps; all records of the embedded data", "why_tests_cant": "The property is about all durations of all steps of a script that waits for minutes and needs a web service.", "anchors": ["utils/get-astromoons.sh", "data/astro"]}
{"id": "C73", "title": "AddHalfMoonDays leaves the given days alone but can overwrite the days behind them", "statement": "For every memory, every slice of days and every growth rule of append: AddHalfMoonDays returns the given days followed by their half moon days and the given slice still shows the same days. Every other slice is unchanged unless it has elements in the same array just behind the given one and the capacity of the given one covers all the half moon days; so days[lo:hi:hi] is safe, and for days[lo:hi] of a longer slice the days from the hi-th on are replaced by the half moon days (witness: 2016). Swapping elements of a CalDaySlice, as sorting does, only reorders it and leaves slices without common elements alone; sorting the result can reorder the days given.", "quantifier": "all contents of memory, all slices and capacities, all sequences of swaps", "why_tests_cant": "The quantifier ranges over unboundedly many inputs; the repo's tests sample a few dozen literals.", "anchors": ["cal_day.go:AddHalfMoonDays", "cal_day.go:CalDaySlice"]}
{"id": "C74", "title": "Days in a zone with daylight saving", "statement": "For dates in any one zone whose offsets stay within a day of each other, and for both ways in which Go has looked up wall clock times: findCalDay finds the first day with the same year, month and day; merging events gives one day for each date, in the order the dates first come up, holding all events of that date in order. AddHalfMoonDays adds one day for each new or full moon, eight dates later at the same time of day whenever the clocks show that time on that date, and otherwise off by the change of the clocks. The end of an all-day event is on the next date exactly if the change of the clocks in between keeps it there. With a fixed offset all this is the model of the other claims. Refuted: the half moon is always on the eighth date (Sao Paulo, where midnight of 18 October 2015 did not exist: it is on the 17th), an event ends on a later date than it begins (London, 30 October 2016), and dates are told apart without the condition on the offsets.", "quantifier": "all zones, as functions from instants to offsets and their periods; all lists of days and events", "why_tests_cant": "The quantifier ranges over unboundedly many inputs; the repo's tests sample a few dozen literals.", "anchors": ["cal_day.go:findCalDay", "cal_day.go:mergeIntoCalDays", "cal_day.go:AddHalfMoonDays", "calendar_event.go:icalEvent"]}
{"id": "C75", "title": "Positions under fused multiply-add", "statement": "Go lets a compiler round x*y+z once, and gc does so on arm64, ppc64, riscv64 and s390x. Wherever it is done in the floating-point expressions of suriya_day.go, helpers.go and math.Sin, for every year 638..10^12: done nowhere, it is the model of the other claims; math.Sin stays within 10^-9 of the sine for arguments up to 100; the integer fields and MeanSun of a day are the same bit for bit; TrueSun, the mean Moon, TrueMoon and Raek of days 0..400 satisfy the equations of C53 and C38; with the same sine, TrueSun and the mean Moon are the same bit for bit from New Year's day on, and so they are with any two accurate sines if 134 times the sine is not within 1/7000 of an integer; TrueMoon differs by at most 1/8000 degree where the mean Moon is the same. Refuted: that TrueSun and TrueMoon never depend on the platform (day 2 of 1901, before New Year's day: TrueSun is -52.3834 without and -52.3835 with fusing).", "quantifier": "all choices of the places that are fused, all accurate sine routines, all days of all years of the era", "why_tests_cant": "The quantifier ranges over unboundedly many inputs; the repo's tests sample a few dozen literals.", "anchors": ["suriya_day.go:82-193", "helpers.go:11-42"]}
{"id": "C76", "title": "The arguments of the program", "statement": "For the commands caldays and ical: the flags from, to and output, each written in any of four ways (-f v, --f v, -f=v, --f=v), in any order and number and with any values, run the command of C60 with the last value of each; no other arguments are taken for flags with values. A usage error comes up exactly if after flags in order there is a malformed one, an unknown one or a last one without a value; then no action is run and no file touched, and the exit status is 0, as main ignores the error. Any other word in the place of the command, or none, shows the first and last day of the year with status 0, whatever follows; the flags of the commands before a command are a usage error, as is every flag there but those for help and the version. A -- before the command is skipped, and no word after it is a flag of the program. The cases left open after a command are exactly: a word that is no flag, -- with something after it, a flag for help. Refuted: that status 0 means there is a result, and that a forgotten value is noticed (the next flag becomes the value).", "quantifier": "all lists of arguments, file contents, settings, clock readings; all texts for usage errors and dumps; arguments left over after the flags, and help and version, are left open", "why_tests_cant": "The quantifier ranges over unboundedly many inputs; the repo's tests sample a few dozen literals.", "anchors": ["suriya/suriya.go:192-233", "suriya/suriya.go:20-46"]}
{"id": "C77", "title": "What a reader of the program's JSON finds", "statement": "For the program run as caldays with the flags written in any of the ways of C76, dates written YYYY-MM-DD or left out, no output file and the embedded data: it ends with status 0, changes no file and prints a JSON text by the grammar of RFC 8259. In it, going by names (year, field) and elements, under the year of each are found exactly the uposathas and exactly the half moons that the calendar of any year has from the one date to the other (from 1 January to 31 December of this year by default), with all their fields, and exactly the festivals that the years of the range have between the two dates; no day has other events. Found are also exactly the astronomical moons of the embedded files from the first date, if it is not before 1900, up to the midnight that begins the last day. For a whole year these are exactly the uposathas and half moons of that year and, with the shipped settings from 1290 to 5834, exactly six festivals at their distances from Asalha Puja.", "quantifier": "all settings, all pairs of dates of the years 0..9999, all ways of giving the flags, all clock readings, files and texts of usage errors", "why_tests_cant": "The quantifier ranges over unboundedly many inputs; the repo's tests sample a few dozen literals.", "anchors": ["suriya/suriya.go:20-87", "suriya/suriya.go:192-233", "cal_day.go:161-260"]}
{"id": "C78", "title": "What a reader of the program's calendar file finds", "statement": "For the program run as ical with the flags written in any of the ways of C76, dates written YYYY-MM-DD or left out, no output file and the embedded data: it ends with status 0 and changes no file. If the identifiers it draws are usable and distinct and there is anything to show, what it prints is an iCalendar stream by RFC 5545 in which exactly the uposathas, half moons and festivals of the range are found, with their texts, each lasting one day, in order; otherwise it is no calendar.", "quantifier": "all settings (31 December 9999 only with the default ones), all pairs of dates of the years 0..9999, all ways of giving the flags, all usable identifiers and times of writing", "why_tests_cant": "The quantifier ranges over unboundedly many inputs; the repo's tests sample a few dozen literals.", "anchors": ["suriya/suriya.go:20-46", "suriya/suriya.go:89-190", "suriya/suriya.go:192-233"]}
{"id": "C79", "title": "Calculated and astronomical moons side by side in the output", "statement": "For the program run as caldays as in C77, with the shipped settings: for an astronomical moon found in the JSON, two days or more from both ends of the range, the calculated moon of C64 (an uposatha for a new or full moon, a half moon for a quarter) is found too, with the same phase and within the same days. For a calculated moon found in the JSON of a range that does not start before 1900, two days or more after its first and three or more before its last day, the astronomical one is found too, for the days C64 is about. Two days before the last are not enough: the output up to 7 May 1917 has the full moon of 5 May and no astronomical moon.", "quantifier": "all pairs of dates of the years 0..9999, all ways of giving the flags, both settings of the exceptions, all moons found", "why_tests_cant": "The quantifier ranges over unboundedly many inputs; the repo's tests sample a few dozen literals.", "anchors": ["suriya/suriya.go:20-87", "cal_day.go:161-260", "astro_moon.go:GetAstroMoons", "uposatha_moon.go:NextUposatha"]}
