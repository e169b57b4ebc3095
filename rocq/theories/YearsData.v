(** Generated by tools/gen_years.py; do not edit.
    Tables recorded in the repository: /repo/utils/years-csv.go:63-111 (dates of Asalha Puja in published
    calendars), /repo/utils/years.csv, and the expected values of /repo/suriya_test.go:8-127, 272-341, 449-464. *)
From Coq Require Import ZArith List String.
Import ListNotations.
Local Open Scope string_scope.

(** (year, (date, source, comments)) *)
Definition published : list (Z * (string * string * string)) := [
(1970%Z, ("1970-07-18", "myhora.com", ""));
(1971%Z, ("1971-07-07", "myhora.com", ""));
(1972%Z, ("1972-07-25", "myhora.com", ""));
(1973%Z, ("1973-07-15", "myhora.com", ""));
(1974%Z, ("1974-07-04", "myhora.com", ""));
(1975%Z, ("1975-07-23", "myhora.com", ""));
(1976%Z, ("1976-07-11", "myhora.com", ""));
(1977%Z, ("1977-07-30", "myhora.com", ""));
(1978%Z, ("1978-07-19", "myhora.com", "adhikavāra is missing from the calendar"));
(1979%Z, ("1979-07-09", "myhora.com", ""));
(1980%Z, ("1980-07-27", "myhora.com", ""));
(1981%Z, ("1981-07-16", "myhora.com", ""));
(1982%Z, ("1982-07-05", "myhora.com", ""));
(1983%Z, ("1983-07-24", "myhora.com", ""));
(1984%Z, ("1984-07-12", "myhora.com", "adhikavāra is missing from the calendar"));
(1985%Z, ("1985-07-31", "myhora.com", ""));
(1986%Z, ("1986-07-20", "myhora.com", ""));
(1987%Z, ("1987-07-10", "thaiorc.com", ""));
(1988%Z, ("1988-07-28", "thaiorc.com", ""));
(1989%Z, ("1989-07-17", "thaiorc.com", ""));
(1990%Z, ("1990-07-07", "thaiorc.com", ""));
(1991%Z, ("1991-07-26", "thaiorc.com", ""));
(1992%Z, ("1992-07-14", "thaiorc.com", ""));
(1993%Z, ("1993-08-02", "thaiorc.com", ""));
(1994%Z, ("1994-07-22", "thaiorc.com, myhora.com", "calendar is missing adhikavāra, passing with exception"));
(1995%Z, ("1995-07-11", "thaiorc.com, myhora.com", ""));
(1996%Z, ("1996-07-29", "thaiorc.com, myhora.com", ""));
(1997%Z, ("1997-07-19", "thaiorc.com, myhora.com", "missing adhikavāra was added back here, passing with exception"));
(1998%Z, ("1998-07-08", "thaiorc.com", ""));
(1999%Z, ("1999-07-27", "thaiorc.com", ""));
(2000%Z, ("2000-07-16", "thaiorc.com", ""));
(2001%Z, ("2001-07-05", "fs-cal, thaiorc.com", ""));
(2002%Z, ("2002-07-24", "thaiorc.com", ""));
(2003%Z, ("2003-07-13", "thaiorc.com", ""));
(2004%Z, ("2004-07-31", "fs-cal", ""));
(2005%Z, ("2005-07-21", "fs-cal", ""));
(2006%Z, ("2006-07-10", "fs-cal", ""));
(2007%Z, ("2007-07-29", "fs-cal", ""));
(2008%Z, ("2008-07-17", "fs-cal, bot.or.th", ""));
(2009%Z, ("2009-07-07", "fs-cal, bot.or.th", ""));
(2010%Z, ("2010-07-26", "fs-cal, bot.or.th", ""));
(2011%Z, ("2011-07-15", "fs-cal, bot.or.th", ""));
(2012%Z, ("2012-08-02", "fs-cal, bot.or.th", ""));
(2013%Z, ("2013-07-22", "fs-cal, bot.or.th", ""));
(2014%Z, ("2014-07-11", "fs-cal, bot.or.th", ""));
(2015%Z, ("2015-07-30", "fs-cal, bot.or.th", ""));
(2016%Z, ("2016-07-19", "fs-cal, bot.or.th, myhora.com", ""))].
Definition recorded_csv : string :=
"CE year;BE year;K;A;T;nM;dM;nV;dV;Asalha by Calc.;Asalha in Calendar;test;source;comments
1970;2513;703;508;10;6;;44;;1970-07-18;1970-07-18;OK;myhora.com;
1971;2514;496;371;21;7;;45;;1971-07-07;1971-07-07;OK;myhora.com;
1972;2515;289;234;2;8;3;46;;1972-07-25;1972-07-25;OK;myhora.com;
1973;2516;82;97;13;9;;47;5;1973-07-15;1973-07-15;OK;myhora.com;
1974;2517;675;663;24;10;;48;;1974-07-04;1974-07-04;OK;myhora.com;
1975;2518;468;526;5;11;3;49;;1975-07-23;1975-07-23;OK;myhora.com;
1976;2519;261;389;16;12;;50;;1976-07-11;1976-07-11;OK;myhora.com;
1977;2520;54;252;27;13;2;51;;1977-07-30;1977-07-30;OK;myhora.com;
1978;2521;647;126;9;14;;52;5;1978-07-20;1978-07-19;FAIL;myhora.com;adhikavāra is missing from the calendar
1979;2522;440;681;19;15;;53;;1979-07-09;1979-07-09;OK;myhora.com;
1980;2523;233;544;0;16;3;54;;1980-07-27;1980-07-27;OK;myhora.com;
1981;2524;26;407;11;17;;55;;1981-07-16;1981-07-16;OK;myhora.com;
1982;2525;619;281;23;18;;56;;1982-07-05;1982-07-05;OK;myhora.com;
1983;2526;412;144;4;19;3;57;;1983-07-24;1983-07-24;OK;myhora.com;
1984;2527;205;7;15;1;;1;6;1984-07-13;1984-07-12;FAIL;myhora.com;adhikavāra is missing from the calendar
1985;2528;798;573;26;2;2;2;;1985-08-01;1985-07-31;FAIL;myhora.com;
1986;2529;591;436;7;3;;3;;1986-07-21;1986-07-20;FAIL;myhora.com;
1987;2530;384;299;18;4;;4;;1987-07-10;1987-07-10;OK;thaiorc.com;
1988;2531;177;162;29;5;3;5;;1988-07-28;1988-07-28;OK;thaiorc.com;
1989;2532;770;36;11;6;;6;5;1989-07-18;1989-07-17;FAIL;thaiorc.com;
1990;2533;563;591;21;7;;7;;1990-07-07;1990-07-07;OK;thaiorc.com;
1991;2534;356;454;2;8;3;8;;1991-07-26;1991-07-26;OK;thaiorc.com;
1992;2535;149;317;13;9;;9;;1992-07-14;1992-07-14;OK;thaiorc.com;
1993;2536;742;191;25;10;2;10;;1993-08-02;1993-08-02;OK;thaiorc.com;
1994;2537;535;54;6;11;;11;5;1994-07-23;1994-07-22;FAIL;thaiorc.com, myhora.com;calendar is missing adhikavāra, passing with exception
1995;2538;328;609;16;12;;12;;1995-07-12;1995-07-11;FAIL;thaiorc.com, myhora.com;
1996;2539;121;472;27;13;3;13;;1996-07-30;1996-07-29;FAIL;thaiorc.com, myhora.com;
1997;2540;714;346;9;14;;14;;1997-07-19;1997-07-19;OK;thaiorc.com, myhora.com;missing adhikavāra was added back here, passing with exception
1998;2541;507;209;20;15;;15;;1998-07-08;1998-07-08;OK;thaiorc.com;
1999;2542;300;72;1;16;3;16;x;1999-07-27;1999-07-27;OK;thaiorc.com;
2000;2543;93;627;11;17;;17;6;2000-07-16;2000-07-16;OK;thaiorc.com;
2001;2544;686;501;23;18;;18;;2001-07-05;2001-07-05;OK;fs-cal, thaiorc.com;
2002;2545;479;364;4;19;3;19;;2002-07-24;2002-07-24;OK;thaiorc.com;
2003;2546;272;227;15;1;;20;;2003-07-13;2003-07-13;OK;thaiorc.com;
2004;2547;65;90;26;2;2;21;x;2004-07-31;2004-07-31;OK;fs-cal;
2005;2548;658;656;7;3;;22;5;2005-07-21;2005-07-21;OK;fs-cal;
2006;2549;451;519;18;4;;23;;2006-07-10;2006-07-10;OK;fs-cal;
2007;2550;244;382;29;5;3;24;;2007-07-29;2007-07-29;OK;fs-cal;
2008;2551;37;245;10;6;;25;;2008-07-17;2008-07-17;OK;fs-cal, bot.or.th;
2009;2552;630;119;22;7;;26;4;2009-07-07;2009-07-07;OK;fs-cal, bot.or.th;
2010;2553;423;674;2;8;3;27;;2010-07-26;2010-07-26;OK;fs-cal, bot.or.th;
2011;2554;216;537;13;9;;28;;2011-07-15;2011-07-15;OK;fs-cal, bot.or.th;
2012;2555;9;400;24;10;2;29;;2012-08-02;2012-08-02;OK;fs-cal, bot.or.th;
2013;2556;602;274;6;11;;30;;2013-07-22;2013-07-22;OK;fs-cal, bot.or.th;
2014;2557;395;137;17;12;;31;;2014-07-11;2014-07-11;OK;fs-cal, bot.or.th;
2015;2558;188;0;28;13;3;32;x;2015-07-30;2015-07-30;OK;fs-cal, bot.or.th;
2016;2559;781;566;9;14;;33;7;2016-07-19;2016-07-19;OK;fs-cal, bot.or.th, myhora.com;
2017;2560;574;429;20;15;;34;;2017-07-08;;;;
2018;2561;367;292;1;16;3;35;;2018-07-27;;;;
2019;2562;160;155;12;17;;36;;2019-07-16;;;;
2020;2563;753;29;24;18;;37;4;2020-07-05;;;;
2021;2564;546;584;4;19;3;38;;2021-07-24;;;;
2022;2565;339;447;15;1;;39;;2022-07-13;;;;
2023;2566;132;310;26;2;2;40;;2023-08-01;;;;
2024;2567;725;184;8;3;;41;;2024-07-20;;;;
2025;2568;518;47;19;4;;42;5;2025-07-10;;;;
2026;2569;311;602;29;5;3;43;;2026-07-29;;;;
2027;2570;104;465;10;6;;44;;2027-07-18;;;;
2028;2571;697;339;22;7;;45;;2028-07-06;;;;
2029;2572;490;202;3;8;3;46;;2029-07-25;;;;
2030;2573;283;65;14;9;;47;5;2030-07-15;;;;
2031;2574;76;620;24;10;2;48;;2031-08-03;;;;
2032;2575;669;494;6;11;;49;;2032-07-22;;;;
2033;2576;462;357;17;12;;50;;2033-07-11;;;;
2034;2577;255;220;28;13;3;51;;2034-07-30;;;;
2035;2578;48;83;9;14;;52;5;2035-07-20;;;;
2036;2579;641;649;20;15;;53;;2036-07-08;;;;
2037;2580;434;512;1;16;3;54;;2037-07-27;;;;
2038;2581;227;375;12;17;;55;;2038-07-16;;;;
2039;2582;20;238;23;18;;56;;2039-07-05;;;;
2040;2583;613;112;5;19;3;57;x;2040-07-23;;;;
2041;2584;406;667;15;1;;1;6;2041-07-13;;;;
".
Definition tested_adhikamasa : list (Z * bool) := [
(1950%Z, true); (1951%Z, false); (1952%Z, false); (1953%Z, true); (1954%Z, false); (1955%Z, false); (1956%Z, true); (1957%Z, false); (1958%Z, true); (1959%Z, false); (1960%Z, false); (1961%Z, true); (1962%Z, false); (1963%Z, false); (1964%Z, true); (1965%Z, false); (1966%Z, true); (1967%Z, false); (1968%Z, false); (1969%Z, true); (1970%Z, false); (1971%Z, false); (1972%Z, true); (1973%Z, false); (1974%Z, false); (1975%Z, true); (1976%Z, false); (1977%Z, true); (1978%Z, false); (1979%Z, false); (1980%Z, true); (1981%Z, false); (1982%Z, false); (1983%Z, true); (1984%Z, false); (1985%Z, true); (1986%Z, false); (1987%Z, false); (1988%Z, true); (1989%Z, false); (1990%Z, false); (1991%Z, true); (1992%Z, false); (1993%Z, true); (1994%Z, false); (1995%Z, false); (1996%Z, true); (1997%Z, false); (1998%Z, false); (1999%Z, true); (2000%Z, false); (2001%Z, false); (2002%Z, true); (2003%Z, false); (2004%Z, true); (2005%Z, false); (2006%Z, false); (2007%Z, true); (2008%Z, false); (2009%Z, false); (2010%Z, true); (2011%Z, false); (2012%Z, true); (2013%Z, false); (2014%Z, false); (2015%Z, true); (2016%Z, false); (2017%Z, false); (2018%Z, true)].
Definition tested_adhikavara : list (Z * bool) := [
(1993%Z, false); (1994%Z, true); (1995%Z, false); (1996%Z, false); (1997%Z, false); (1998%Z, false); (1999%Z, false); (2000%Z, true); (2001%Z, false); (2002%Z, false); (2003%Z, false); (2004%Z, false); (2005%Z, true); (2006%Z, false); (2007%Z, false); (2008%Z, false); (2009%Z, true); (2010%Z, false); (2011%Z, false); (2012%Z, false); (2013%Z, false); (2014%Z, false); (2015%Z, false); (2016%Z, true)].
Definition tested_asalha : list (Z * string) := [
(1950%Z, "1950-07-29");
(1951%Z, "1951-07-18");
(1954%Z, "1954-07-15");
(1955%Z, "1955-07-04");
(1956%Z, "1956-07-22");
(1959%Z, "1959-07-20");
(1960%Z, "1960-07-08");
(1961%Z, "1961-07-27");
(1962%Z, "1962-07-16");
(1963%Z, "1963-07-06");
(1964%Z, "1964-07-24");
(1965%Z, "1965-07-13");
(1966%Z, "1966-08-01");
(1967%Z, "1967-07-21");
(1970%Z, "1970-07-18");
(1971%Z, "1971-07-07");
(1972%Z, "1972-07-25");
(1973%Z, "1973-07-15");
(1974%Z, "1974-07-04");
(1975%Z, "1975-07-23");
(1976%Z, "1976-07-11");
(1977%Z, "1977-07-30");
(1978%Z, "1978-07-20");
(1979%Z, "1979-07-09");
(1980%Z, "1980-07-27");
(1981%Z, "1981-07-16");
(1982%Z, "1982-07-05");
(1983%Z, "1983-07-24");
(1984%Z, "1984-07-13");
(1985%Z, "1985-08-01");
(1986%Z, "1986-07-21");
(1987%Z, "1987-07-10");
(1988%Z, "1988-07-28");
(1989%Z, "1989-07-18");
(1990%Z, "1990-07-07");
(1991%Z, "1991-07-26");
(1992%Z, "1992-07-14");
(1993%Z, "1993-08-02");
(1994%Z, "1994-07-23");
(1995%Z, "1995-07-12");
(1996%Z, "1996-07-30");
(1997%Z, "1997-07-19");
(1998%Z, "1998-07-08");
(1999%Z, "1999-07-27");
(2000%Z, "2000-07-16");
(2001%Z, "2001-07-05");
(2002%Z, "2002-07-24");
(2003%Z, "2003-07-13");
(2004%Z, "2004-07-31");
(2005%Z, "2005-07-21");
(2006%Z, "2006-07-10");
(2007%Z, "2007-07-29");
(2008%Z, "2008-07-17");
(2009%Z, "2009-07-07");
(2010%Z, "2010-07-26");
(2011%Z, "2011-07-15");
(2012%Z, "2012-08-02");
(2013%Z, "2013-07-22");
(2014%Z, "2014-07-11");
(2015%Z, "2015-07-30");
(2016%Z, "2016-07-19");
(2017%Z, "2017-07-08");
(2018%Z, "2018-07-27");
(2019%Z, "2019-07-16");
(2024%Z, "2024-07-20");
(2025%Z, "2025-07-10")].
(** (Horakhun, (year, month, day)) *)
Definition tested_horakhun : list (Z * (Z * Z * Z)) := [
(0, (638, 3, 24))%Z; (205184, (1200, 1, 1))%Z; (237396, (1288, 3, 11))%Z; (237430, (1288, 4, 14))%Z; (237437, (1288, 4, 21))%Z; (237499, (1288, 6, 22))%Z; (338796, (1565, 10, 26))%Z; (351281, (1600, 1, 1))%Z; (387806, (1700, 1, 1))%Z; (408625, (1757, 1, 1))%Z; (408805, (1757, 6, 30))%Z; (483946, (1963, 3, 24))%Z; (484049, (1963, 7, 5))%Z; (502857, (2015, 1, 1))%Z].
