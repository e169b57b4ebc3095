-Q theories Verif
theories/GoInt.v
theories/GoTime.v
theories/SuriyaYear.v
theories/GoFloat.v
theories/SuriyaDay.v
theories/Machine.v
theories/Helpers.v
theories/UposathaMoon.v
theories/CalDay.v
theories/AstroMoon.v
theories/AstroData.v
theories/AstroFS.v
theories/GoldenData.v
theories/P_Time.v
theories/P_Year.v
theories/Spec.v
theories/SpecCal.v
theories/P_Counts.v
theories/P_Kattika.v
theories/P_Float.v
theories/P_Machine.v
theories/P_Day.v
theories/P_Misc.v
theories/P_Chain.v
theories/P_Gen.v
theories/P_Gen2.v
theories/P_CalDays.v
theories/P_CalDays2.v
theories/SpecAstro.v
theories/P_Astro.v
theories/Prop_Year.v
theories/Prop_Kattika.v
theories/P_Age.v
theories/Prop_Calendar.v
theories/Prop_Days.v
theories/Prop_Astro.v
theories/Prop_CalDay.v
theories/CalDayHeap.v
theories/Prop_Heap.v
theories/Text.v
theories/SpecText.v
theories/P_Text.v
theories/P_Date.v
theories/Cli.v
theories/Output.v
theories/P_Cli.v
theories/Prop_Cli.v
theories/P_Json.v
theories/Prop_Json.v
theories/Golden.v
theories/Prop_Misc.v
theories/EscData.v
theories/EscMeta.v
theories/Esc.v
theories/P_Esc.v
theories/Prop_Esc.v
theories/GoSin.v
theories/P_Degree.v
theories/P_Approx.v
theories/P_Positions.v
theories/P_Sin.v
theories/Prop_Degree.v
theories/Prop_Sharp.v
theories/Prop_Sun.v
theories/YearsData.v
theories/YearsCsv.v
theories/YearText.v
theories/GoldenDays.v
theories/P_Csv.v
theories/Prop_Csv.v
theories/P_SinAcc.v
theories/P_Equations.v
theories/Prop_Equations.v
theories/EscUse.v
theories/Prop_EscUse.v
theories/Prop_YearText.v
theories/Base64.v
theories/Deflate.v
theories/EscBytes.v
theories/Gzip.v
theories/JsonRead.v
theories/Assets.v
theories/P_Gzip.v
theories/P_Assets.v
theories/Prop_Assets.v
theories/Prop_EscOpen.v
theories/EscLocal.v
theories/Prop_EscLocal.v
theories/Prop_Gzip.v
theories/SpecJson.v
theories/P_JsonRead.v
theories/P_JsonMean.v
theories/P_JsonAgree.v
theories/Prop_JsonRead.v
theories/Prop_Output.v
theories/SpecFlate.v
theories/P_Deflate.v
theories/P_Formats.v
theories/Prop_Formats.v
theories/GoldenIcal.v
theories/IcalText.v
theories/SpecIcal.v
theories/P_Ical.v
theories/Prop_Ical.v
theories/Prop_Title.v
theories/Prop_Summaries.v
theories/Prop_Path.v
theories/Prop_Members.v
theories/P_Near.v
theories/Prop_Near.v
theories/MachineCal.v
theories/P_MachineCal.v
theories/Prop_MachineCal.v
theories/Prop_Asalha.v
theories/P_Period.v
theories/Prop_Period.v
theories/Prop_Cycle.v
theories/YearsMain.v
theories/Prop_YearsMain.v
theories/Prop_Join.v
theories/Prop_Opposition.v
theories/MoonScript.v
theories/Prop_MoonScript.v
theories/DaySlices.v
theories/Prop_DaySlices.v
theories/Zones.v
theories/Prop_Zones.v
theories/Fused.v
theories/P_Fused.v
theories/Prop_Fused.v
theories/Args.v
theories/Prop_Args.v
theories/Prop_Program.v
theories/Prop_Festivals.v
theories/Prop_Lost.v
theories/Prop_Program2.v
theories/Prop_Program3.v
theories/Assumptions.v
