(** Generated by tools/gen_golden.py from the recorded outputs in /repo/suriya/testdata;
    do not edit.  The days from 2015-05-28 to 2015-08-06 in the caldays JSON output, byte for byte, and
    the VEVENTs of these days in the ical output.  The spelling "Visākha" of the recordings
    is replaced by the current "Vesākha" (cal_day.go:255). *)
From Coq Require Import List String.
Import ListNotations.

Definition golden_from : string := "2015-05-28".
Definition golden_to : string := "2015-08-06".
Definition golden_json : string :=
"{""2015"":[{""Date"":""2015-06-01T00:00:00Z"",""UposathaMoon"":[{""Date"":""2015-06-01T00:00:00Z"",""Calendar"":0,""Status"":2,""Phase"":""full"",""Event"":""vesakha"",""S_Number"":6,""S_Total"":10,""U_Days"":15,""M_Days"":30,""LunarMonth"":7,""LunarSeason"":2,""LunarYear"":2558,""HasAdhikavara"":false,""Source"":"""",""Comments"":""""}],""MajorEvents"":[{""Date"":""2015-06-01T00:00:00Z"",""Calendar"":0,""Summary"":""Vesākha Pūjā"",""Description"":""Vesākha Pūjā""}]},{""Date"":""2015-06-02T16:21:57Z"",""AstroMoon"":[{""Phase"":""full"",""Date"":""2015-06-02T16:21:57Z""}]},{""Date"":""2015-06-09T00:00:00Z"",""HalfMoon"":[{""Date"":""2015-06-09T00:00:00Z"",""Phase"":""waning""}]},{""Date"":""2015-06-15T00:00:00Z"",""UposathaMoon"":[{""Date"":""2015-06-15T00:00:00Z"",""Calendar"":0,""Status"":2,""Phase"":""new"",""Event"":"""",""S_Number"":7,""S_Total"":10,""U_Days"":14,""M_Days"":29,""LunarMonth"":8,""LunarSeason"":2,""LunarYear"":2558,""HasAdhikavara"":false,""Source"":"""",""Comments"":""""}]},{""Date"":""2015-06-16T14:07:42Z"",""AstroMoon"":[{""Phase"":""new"",""Date"":""2015-06-16T14:07:42Z""}]},{""Date"":""2015-06-23T00:00:00Z"",""HalfMoon"":[{""Date"":""2015-06-23T00:00:00Z"",""Phase"":""waxing""}]},{""Date"":""2015-06-30T00:00:00Z"",""UposathaMoon"":[{""Date"":""2015-06-30T00:00:00Z"",""Calendar"":0,""Status"":2,""Phase"":""full"",""Event"":"""",""S_Number"":8,""S_Total"":10,""U_Days"":15,""M_Days"":29,""LunarMonth"":8,""LunarSeason"":2,""LunarYear"":2558,""HasAdhikavara"":false,""Source"":"""",""Comments"":""""}]},{""Date"":""2015-07-02T02:22:22Z"",""AstroMoon"":[{""Phase"":""full"",""Date"":""2015-07-02T02:22:22Z""}]},{""Date"":""2015-07-08T00:00:00Z"",""HalfMoon"":[{""Date"":""2015-07-08T00:00:00Z"",""Phase"":""waning""}]},{""Date"":""2015-07-15T00:00:00Z"",""UposathaMoon"":[{""Date"":""2015-07-15T00:00:00Z"",""Calendar"":0,""Status"":2,""Phase"":""new"",""Event"":"""",""S_Number"":9,""S_Total"":10,""U_Days"":15,""M_Days"":30,""LunarMonth"":13,""LunarSeason"":2,""LunarYear"":2558,""HasAdhikavara"":false,""Source"":"""",""Comments"":""""}]},{""Date"":""2015-07-16T01:26:11Z"",""AstroMoon"":[{""Phase"":""new"",""Date"":""2015-07-16T01:26:11Z""}]},{""Date"":""2015-07-23T00:00:00Z"",""HalfMoon"":[{""Date"":""2015-07-23T00:00:00Z"",""Phase"":""waxing""}]},{""Date"":""2015-07-30T00:00:00Z"",""UposathaMoon"":[{""Date"":""2015-07-30T00:00:00Z"",""Calendar"":0,""Status"":2,""Phase"":""full"",""Event"":""asalha"",""S_Number"":10,""S_Total"":10,""U_Days"":15,""M_Days"":30,""LunarMonth"":13,""LunarSeason"":2,""LunarYear"":2558,""HasAdhikavara"":false,""Source"":"""",""Comments"":""""}],""MajorEvents"":[{""Date"":""2015-07-30T00:00:00Z"",""Calendar"":0,""Summary"":""Āsāḷha Pūjā"",""Description"":""Āsāḷha Pūjā""}]},{""Date"":""2015-07-31T00:00:00Z"",""AstroMoon"":[{""Phase"":""full"",""Date"":""2015-07-31T10:45:46Z""}],""MajorEvents"":[{""Date"":""2015-07-31T00:00:00Z"",""Calendar"":0,""Summary"":""First day of Vassa"",""Description"":""First day of Vassa""}]}]}"%string.
(** (DTSTART, DTEND, SUMMARY) *)
Definition golden_ical : list (string * string * string) := [
("2015-06-01", "2015-06-02", "Full Moon - 15 day Gimha 6/10");
("2015-06-01", "2015-06-02", "Vesākha Pūjā");
("2015-06-09", "2015-06-10", "Waning Moon");
("2015-06-15", "2015-06-16", "New Moon - 14 day Gimha 7/10");
("2015-06-23", "2015-06-24", "Waxing Moon");
("2015-06-30", "2015-07-01", "Full Moon - 15 day Gimha 8/10");
("2015-07-08", "2015-07-09", "Waning Moon");
("2015-07-15", "2015-07-16", "New Moon - 15 day Gimha 9/10");
("2015-07-23", "2015-07-24", "Waxing Moon");
("2015-07-30", "2015-07-31", "Full Moon - 15 day Gimha 10/10");
("2015-07-30", "2015-07-31", "Āsāḷha Pūjā");
("2015-07-31", "2015-08-01", "First day of Vassa")]%string.
