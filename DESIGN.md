# Formal model of splendidmoons/suriya-go in Rocq (Coq 8.16.1)

The Go sources in /repo were read as text and transcribed by hand into Rocq definitions;
every definition cites its source lines. The theorems are in `rocq/theories/Prop_*.v`,
named after the property they belong to (`properties.jsonl`, `MANIFEST.json`).
A theorem whose name ends in `_refuted` exhibits an input on which a claim of the source or the
natural expectation is false.

## 1. Layers of the model

All files are in `rocq/theories`.

| File | Models | Style |
|---|---|---|
| GoInt.v | Go `int`/`int64`: wrap-around, truncating `/` and `%` | computable Z |
| GoFloat.v | float64 = Flocq `binary_float 53 1024`, round to nearest even, `math.Floor`, `math.Abs`, conversions | Flocq |
| GoTime.v | `time.Time`: nanoseconds since 0001-01-01T00:00:00Z plus a fixed zone offset; proleptic Gregorian calendar | computable Z |
| GoSin.v | `math.Sin` (the portable routine used on amd64, from the Cephes library; 4/pi rounded to nearest, of which some older Go versions write the next lower double) | float64 |
| SuriyaYear.v | suriya.go, suriya_year.go over exact integers | Z |
| SuriyaDay.v | the integer fields of suriya_day.go | Z |
| Machine.v | suriya_year.go, suriya_day.go and the float helpers of helpers.go with int64 and float64 | int64 + float64 |
| Fused.v | the float64 expressions of suriya_day.go, helpers.go and `math.Sin` with products fused at any chosen places | float64 |
| Helpers.v | helpers.go (Kattika stepping, `HorakhunToDate`, name tables), `AsalhaPuja` | Z, int64 for the loop of `HorakhunToDate` |
| MachineCal.v | the calendar functions of suriya_year.go, helpers.go, uposatha_moon.go, cal_day.go, astro_moon.go with int64 arithmetic, `Time.Add` on int64 seconds | int64 |
| UposathaMoon.v | uposatha_moon.go | records |
| CalDay.v | cal_day.go, event.go, major_event.go, half_moon.go | records, lists |
| CalDayHeap.v | cal_day.go again, with slices sharing storage | heap |
| DaySlices.v | `AddHalfMoonDays` and CalDaySlice on slices of days that share arrays | heap |
| Zones.v | the day handling of cal_day.go and calendar_event.go in zones with daylight saving | a location is a function from seconds to offsets |
| AstroMoon.v | astro_moon.go, aeris_moon.go, `GetCalDays`; files are an arbitrary oracle | lists |
| AstroData.v, AstroFS.v | the embedded moons, as lists; C56 proves them to be what data.go decodes to | data |
| EscData.v, EscMeta.v, Esc.v | data.go: the embedded file system, `prepare`/`FSByte` under concurrency | interleaving semantics |
| EscBytes.v | the compressed texts of data.go, copied by tools/gen_escbytes.py | data |
| Base64.v, Deflate.v, Gzip.v | the decoders `prepare` runs: base64 with line breaks, DEFLATE, gzip with CRC-32 | computable lists |
| JsonRead.v | `json.Unmarshal` into `AerisResponse` | strings |
| Assets.v | the asset table of data.go and the reading of a year's file through all of these | |
| EscUse.v | data.go: all accessors and open files, with the shared bytes | state machine |
| EscLocal.v | data.go with `useLocal`: the accessors and Open over any disk | the disk is a parameter |
| Text.v | the texts produced: `String()` methods, dates, JSON | strings |
| Cli.v | suriya/suriya.go, calendar_event.go | lists, strings |
| Args.v | `main` of suriya/suriya.go: commands, flags and the default action | lists of strings |
| IcalText.v | the text of the ical command | strings |
| YearsCsv.v, YearsMain.v, YearsData.v | utils/years-csv.go and the recorded utils/years.csv | strings |
| MoonScript.v | utils/get-astromoons.sh: arguments, requests and their times, files, terminal | trace of actions; the time each step takes is a parameter |
| YearText.v | `Sprintf` with %d and %s, the texts of years and angles, `yearsCsvSimple` | strings |
| Golden.v, GoldenDays.v, GoldenData.v, GoldenIcal.v | tests of the model against outputs recorded in /repo | data |
| Spec.v, SpecCal.v, SpecAstro.v, SpecText.v, SpecJson.v, SpecFlate.v, SpecIcal.v | vocabulary of the statements, independent of the model | |
| P_*.v | lemmas | |
| Prop_*.v | the theorems, each with an example | |
| Assumptions.v | `Print Assumptions` of every theorem in the manifest (generated) | |

Two levels are used for the arithmetic. SuriyaYear.v and SuriyaDay.v use exact integers;
Machine.v transcribes the same functions with the wrapping integers and rounded floats of Go;
C06 proves both equal for years and days of magnitude up to 10^12, and gives the exact range of years (Prop_Sharp.v).

The model reproduces the outputs recorded in the repository: the year values, positions, ages and
dates expected by suriya_test.go, the JSON and iCalendar files of suriya/testdata, and the file
utils/years.csv byte for byte.

## 2. How each property is proved

* C01-C05, C39: linear integer arithmetic with `/` and `mod` by constants, for all years of the era.
* C06: range lemmas remove the int64 wraps; a Flocq rounding lemma gives floor(fl(a/692)) = floor(a/692). For the exact range, half an ulp below 2^44 bounds the error up to 53 bits, and the few years after that up to the first wrong one are computed.
* C07-C12: the year step moves (Avoman, Tithi) by constants; windows by `lia`, counting by induction on the span.
* C13: case split on the sign, modular arithmetic.
* C14-C16: induction on the number of loop steps in both directions; closed form as invariant.
* C17: the offset from 1 January evaluated for each year of the stated finite interval.
* C18: from C16 and C19.
* C19: loop invariant with explicit int64 Duration; the float64 comparison is monotone.
* C20: case analysis over the record.
* C21-C26, C49: the year of each intermediate date bounded by linear arithmetic; symbolic execution of the 24/26 steps; the loop characterised as "iterate until past the year".
* C27-C29: invariant of the merge fold (no two entries on one UTC day); uniqueness of the sorted permutation.
* C30-C33: induction over the year loop with an arbitrary file oracle; the concrete data evaluated by the kernel.
* C34-C38: Flocq error analysis; `math.Sin` is universally quantified and only assumed finite and bounded by 1 + 10^-6; P_Sin.v proves that of Go's routine.
* C53: the polynomials of `math.Sin` against Taylor bounds of sin and cos (P_SinAcc.v, accuracy 10^-9 for arguments up to 100), then the error budget of each equation; the sine routine is again quantified, assumed accurate to 10^-6.
* C40-C42, C47, C48: structural induction and case analysis; C41 on a heap model of slices, for every growth policy of `append`.
* C43, C44: list reasoning on the grouping fold.
* C45: invariant over a small-step interleaving semantics of `sync.Once`.
* C46: decimal printing is injective; paths cleaned by components.
* C50: a date string is accepted iff it is the text of a civil date, by case analysis on its ten characters.
* C51: printing is injective, value by value (unique readability of the printed JSON).
* C52, C55: splitting inverts joining; the fields contain neither separator.
* C54: invariant over the history of operations.
* C56: the decoders run on all 141 texts by the kernel.
* C57: locality of the decoders (what they read they also read with more input behind it); the CRC is linear over GF(2) and its step invertible.
* C58: the JSON grammar and the meaning of values are relations (SpecJson.v); the recursive-descent reader is sound and complete for them, by induction on the text and on derivations; every string of the grammar has a meaning, so the relations between texts and responses do not mention the decoder.
* C59: the formats are relations (SpecFlate.v). A stream is the list of its bits; the tree built from code lengths has exactly the canonical words as paths (induction on depth with the Kraft sum as invariant); decoders sound and complete by induction on fuel and on derivations, which also shows the fuel sufficient; the CRC register is the remainder of polynomial division, bit by bit.
* C60: case analysis of a run; JSON or not by the reader of C58.
* C61: RFC 5545 is written as relations (SpecIcal.v) and shown unambiguous; an invariant of the moon chain bounds the numbers in a summary, so the summaries are finitely many texts, which the kernel goes through; events and order from C44; the year 9999 is computed.
* C62, C63: the state of an open file is its position; the disk is a parameter, compared with the table by cases on the key.
* C64: one walk over both sorted lists, by evaluation on the rows of the lunar years (P_Chain.v); soundness of the walk by induction.
* C65: the members of the printed tree are read off the meaning relation of C58; the converse by taking two descriptions of one value apart.
* C66: each step is exact while years stay below 10^12 and seconds below 9*10^18; the counters of the moons grow by at most one per step, the dates are bounded by the Kattika date below and the year asked for above.
* C67: the closed form of C16 and C18 against 365.2425 days a year; the range of years by evaluating the years outside 631..4116 and C17 inside.
* C68: the state of a year is a rotation; injective on a period by coprimality (Gauss), hence a permutation of all states, over which sums are counted; no shorter period because the number of adhikamasa years in one is coprime to it.
* C69: the two ranges by evaluation; that no set of positions works from C68.
* C70: the events of a day come from its own year only, so those of a part are those of the whole; lists sorted by day are determined by the entries of each day (C28).
* C71: the float bounds of C38 with Tithi and Avoman put together; the places of the uposathas from the rows of a lunar year as in C49, keeping the fraction.
* C72: an invariant of the loop: requests come in batches of at most eleven whose starts are more than a minute apart; the data by computation.
* C73: what append writes, cell by cell; the loop's own slice is always in arrays made after the call.
* C74: both ways in which Go has looked up a wall clock time return it minus an offset of the zone; near a single change of the clocks the offset is that of the time if any is right. Induction over the events merged.
* C75: error bounds of the fused operations as for C37 and C53; most fused products are exact, so that both roundings agree. For the mean Sun, 21600 a / 292207 is an integer or at least 1/292207 from one. For TrueSun the sum lies in a binade where the product is off by at most half a unit in the last place, and both sums have the same floor. Before New Year's day the mean Sun is negative and this fails.
* C76: induction over the arguments, two at a time; an argument is classified by its first three characters.
* C77: C76, C60, C51, C65 and C28 put together; the JSON is taken apart by names and elements only, and an object determines the moon it stands for (C65). The astronomical moons of the embedded files lie on different UTC days (computed), so none replaces another.
* C78: C76, C61 and C44 put together. C79: C77 and C64 put together. The six days of C64_apart are computed over both lists.

## 3. Trusted base

1. The Rocq kernel, including its bytecode machine (`vm_compute`), and coqchk, which re-checks everything without it.
2. The axioms of the standard library listed below. No axiom is declared in this development and
   no kernel check is switched off. Flocq (4.1.0) is used and adds no axiom of its own.
3. The transcription from Go to Rocq, as described in this section.

`Print Assumptions` says of the theorems in MANIFEST.json (output of Assumptions.v, collected by tools/assumptions.py):

<!-- assumptions -->
* Closed under the global context (290 theorems): C01_year_ranges, C01_before_era_refuted, C02_horakhun_exact, C03_leap_rule, C03_before_era_refuted, C04_era_cycle, C05_lunar_count_exact, C07_adhikamasa_spacing, C07_adhikamasa_recurs, C07_delta_adhikamasa_exact, C07_first_year_refuted, C08_months_tracked, C08_metonic_count, C08_always_seven_refuted, C09_year_types_exclusive, C09_year_length, C09_user_table_refuted, C10_missing_tithi, C10_both_work_refuted, C11_carry, C11_balance, C11_spacing, C12_delta_adhikavara_exact, C13_cycle_positions, C13_backwards_refuted, C14_exceptions_local, C14_kattika_shift, C14_asalha_shift, C15_kattika_step, C15_kattika_epoch, C16_kattika_closed_form, C16_no_drift, C16_drift_from_4099, C16_full_moon, C17_kattika_previous_year, C17_range_is_sharp_refuted, C20_next_uposatha, C21_year_closes, C21_year_closes_631_4115, C21_4116_refuted, C22_numbering, C23_no_gap, C23_each_in_its_year, C23_count, C23_hypotheses, C23_kattika_lost, C23_4117_refuted, C24_major_events, C24_hypotheses, C24_announced, C24_1289_refuted, C24_late, C24_late_hypotheses, C24_5835_refuted, C25_half_moons, C25_between_uposathas, C25_none_lost, C25_lost_at_seam_refuted, C26_terminates, C27_strictly_increasing, C27_returns, C27_any_sort, C28_exact, C28_no_moon_missed, C28_other_zone_refuted, C29_moons, C29_major_events, C30_exact, C30_empty_range, C30_missing_hides_rest, C30_complete_refuted, C31_records, C31_order, C31_files, C31_seams, C31_cyclic_refuted, C32_never_panics, C32_complete, C32_before_1900, C33_last_day, C33_witness_refuted, C39_day_names, C39_day_linear, C39_day_of_year_record, C39_day_moon, C39_apogee, C39_same_day, C39_kammacubala, C40_accessors, C40_get_set, C40_at_most_one, C41_merge_refines, C41_copy_shares, C41_copy_of_empty, C41_append_refuted, C42_half_moon_days, C42_eighth_day, C42_twice, C42_idempotent_refuted, C43_groups, C43_concatenation, C43_key_order_refuted, C44_day, C44_exact, C44_order, C45_results, C45_decoded_once, C45_completes, C45_one_error, C45_error_every_caller_refuted, C46_injective, C46_name, C46_present, C46_clean_idempotent, C47_empty, C47_empty_moon, C47_day, C47_injective, C47_year, C47_no_season, C47_half_moons, C47_astro_moons, C47_title, C47_title_length, C48_months, C48_seasons, C48_calendars_statuses, C48_unknown_names_refuted, C49_moon_ages, C49_moon_ages_exceptions, C50_accepts, C50_reads_back, C50_range, C50_default_year, C51_always_prints, C51_output_determines_days, C52_table, C52_gaps, C52_published, C52_main, C54_reads, C54_constant, C54_absent, C54_readers, C54_name, C54_sequential, C54_shared_refuted, C54_own_name_refuted, C54_dir_refuted, C54_clean, C54_base, C55_values, C55_values_injective, C55_string, C55_simple, C56_content, C56_every_year, C56_concurrent, C56_directories, C57_round_trip, C57_truncated, C57_assets_truncated, C57_checksum, C57_damage, C57_header_refuted, C58_grammar, C58_unambiguous, C58_printed, C58_caldays, C58_strings, C58_times, C58_time_round_trip, C58_decoded, C58_accepted, C59_base64, C59_deflate, C59_checksum, C59_header, C59_decode, C59_other, C59_prefix, C59_prefix_code, C59_assets, C60_agrees, C60_file, C60_failure, C60_old_file_kept_refuted, C60_status, C60_stdout, C60_clock, C60_one_year_refuted, C60_ical, C60_ical_failure, C60_message, C61_unambiguous, C61_calendar, C61_last_day, C61_command, C61_empty_refuted, C62_reader, C62_determined, C62_size, C62_stat, C62_order, C62_listing_refuted, C63_confined, C63_mirror, C63_opens, C63_relative_refuted, C63_directory_refuted, C63_partial_refuted, C63_closed_refuted, C63_unclosed, C64_every_astronomical, C64_every_calculated, C64_sharp, C64_gaps_refuted, C64_apart, C65_members, C65_determined, C65_years, C67_same_year, C67_range_is_sharp_refuted, C67_drift, C67_window, C68_every_state_once, C68_period, C68_types, C68_no_shorter, C68_drift, C68_days, C68_counts, C68_moon_kept_refuted, C69_months, C69_days, C69_ranges_are_sharp_refuted, C69_no_pattern, C70_join, C70_embedded, C70_midnights_refuted, C70_before_the_data_refuted, C71_every_day, C72_ends, C72_years, C72_rate, C72_ten_a_minute_refuted, C72_daily_limit_refuted, C72_files, C72_names, C72_refuses, C72_terminal, C72_address, C72_escaped_refuted, C72_limit, C72_last_day_lost, C73_value, C73_others, C73_overwrites, C73_capped, C73_no_room, C73_part, C73_swaps, C73_keeps_the_rest_refuted, C73_sorting_keeps_the_given_refuted, C74_find, C74_merge, C74_half_moons, C74_last_day, C74_fixed, C74_eighth_day_refuted, C74_end_refuted, C74_date_line_refuted, C76_flags, C76_understood, C76_rejected, C76_usage, C76_status_refuted, C76_forgotten_value_refuted, C76_no_command, C76_before_command, C76_terminator, C76_program_flags, C76_left_open, C77_found, C77_astronomical, C77_year, C78_calendar, C79_astronomical, C79_calculated, C79_margin_refuted.
* `ClassicalDedekindReals.sig_forall_dec`, `ClassicalDedekindReals.sig_not_dec`, `Classical_Prop.classic`, `FunctionalExtensionality.functional_extensionality_dep` (49 theorems): C06_exact_range, C06_beyond_refuted, C06_exact_days, C06_days_beyond_refuted, C06_machine_year_exact, C06_machine_day_exact, C06_machine_cycle_exact, C06_overflow_refuted, C18_asalha_routes, C18_asalha_3578_refuted, C19_horakhun_to_date, C19_horakhun_injective, C34_round_trip, C34_inverse_refuted, C35_nonnegative, C35_negative, C35_back, C36_after_new_year, C36_before_new_year, C37_above, C37_below, C37_range_refuted, C38_go_sin, C38_positions, C38_raek_range_refuted, C53_constants, C53_go_sin, C53_true_sun, C53_true_moon, C53_sun_side, C53_traditional_refuted, C55_ral_string, C66_year_types, C66_dates, C66_next, C66_generated, C66_cal_days, C66_overflow_refuted, C71_distance, C71_opposition, C71_within_a_lunar_day_refuted, C75_unfused, C75_go_sin, C75_mean, C75_equations, C75_sun, C75_sun_sines, C75_moon, C75_sun_before_refuted.
* `ClassicalDedekindReals.sig_forall_dec`, `FunctionalExtensionality.functional_extensionality_dep` (2 theorems): C71_place, C71_place_exceptions.
<!-- end of assumptions -->

The axioms are those of the classical real numbers, and come in with Flocq's real-valued semantics of float64.

### Modelled

* All functions of suriya.go, suriya_year.go, suriya_day.go, uposatha_moon.go, cal_day.go, event.go,
  major_event.go, half_moon.go, astro_moon.go, aeris_moon.go, calendar_event.go and helpers.go that the
  library or its command uses, and `SuriyaYear.String`, `SuriyaValuesString`.
* All of data.go with `useLocal` = false: `prepare`/`FSByte` under concurrency (Esc.v), every accessor and the handles in sequence, with `bytes.Reader`'s Read and Seek (EscUse.v).
  With `useLocal` = true: which path is opened and what is returned, over any disk (EscLocal.v).
* `caldays` and `ical` of suriya/suriya.go, with the handling of the date flags, exit status, standard output and the `--output` file (Output.v), and the text of the calendar (IcalText.v); `main` (Args.v).
* utils/years-csv.go, as if it compiled; utils/get-astromoons.sh.

### Simplifications

* `time.Time`: unbounded nanoseconds; a location is a fixed offset, except in Zones.v; no leap seconds;
  the monotonic clock reading is absent. Go's own overflow is beyond year 2.9e11.
  The library's own events are all UTC and a range is only read for its year and compared as an instant, so daylight saving only
  matters for events a caller makes in such a zone; C74 is about these. Zones.v has all the dates handled together in one zone,
  and the two ways `time.Date` has of using the zone (its sources are not in the sandbox) are transcribed from knowledge of them.
* float64: each operation rounded separately (no fused multiply-add, true of gc on amd64), except in Fused.v, where any choice of the
  products that are part of a sum may be fused; a place is fused in all calls or in none, and a product passed to `math.Sin` is rounded first. One NaN.
* int: 64 bits. The claims about the calendar are over unbounded integers; C06 and C66 prove the int64 versions of Machine.v and MachineCal.v equal to them for years up to 10^12 resp. 10^11. `Year`, `AddDate` and `time.Date` are exact in both.
* The cli package and the flag package (C76) are transcribed from knowledge of them: cli from 1.17 on and before 1.21, with arguments in the order given.
* The standard library is modelled by its documented behaviour: `time` (dates, `AddDate`, `Truncate`, parsing and
  printing of YYYY-MM-DD and RFC 3339), `fmt` (%d, %s, %v), `strings.Title` (ASCII), `encoding/json` (field order,
  escapes, sorted map keys), `path.Clean`/`Base` and `filepath.Join` on Unix, `sort.Sort` (some sorted permutation,
  C27 proves the result independent of which), `sync.Once`.
* The compressed texts in EscBytes.v are a copy of those in data.go made by tools/gen_escbytes.py; they are decoded inside the proofs (C56).
  Esc.v and EscUse.v are for any outcome of decoding.
* `compress/gzip`, `compress/flate`, `encoding/base64` follow the RFCs and Go's treatment of line breaks, left-over bits, several members, long names, reserved flags, degenerate codes and truncated input. Go's sources of these packages are not in the sandbox: this treatment is transcribed from knowledge of them, and C59 proves the decoders against relations with the same choices, so it does not check the choices themselves;
  `encoding/json` decoding covers what a value of `AerisResponse` can meet (see the headers of these files).
* The ical package is not in /repo. The order and form of the lines in IcalText.v are those of the recorded suriya/testdata/mahanikaya-from-2013-01-01-to-2017-12-31.ical; that texts are written without escapes and folding is seen there only for texts that need neither, and C61 shows that all are such. UIDs and times of writing are arbitrary inputs.
* Loops of unknown length carry fuel; a result `None` means the fuel ran out and theorems state it does not happen.
* `append` allocates an arbitrary sufficient capacity.

### Not modelled

* In the arguments of the command: what is left over after the flags, and help and version (C76 leaves these open); the text of usage errors and of the default action's dump (parameters).
* `Sys` of data.go, the other methods of `bytes.Reader` (not reachable through http.File), the `*os.File` that Open returns with `useLocal`, and the use by an HTTP server.
* The web service that utils/get-astromoons.sh asks, and leading zeros in its arguments.
* Log output (standard error).

## 4. Findings in the code

* utils/years-csv.go names a field `BE_year`; the struct has `BE_Year`. The program does not compile. If it did, a failed write would still end with exit status 0 (C52).
* `Would_Be_Adhikavara`: the comment "both <= and < seems to work" is false from 3577 on (C10); with `<=` the year has a surplus day,
  and the two routes to Asalha Puja differ in 3578 (C18). Such days come 3726 times in 16608000 years, and by the year 62000 they have carried
  the Kattika full moon to a new moon (C68).
* `RalToDegree`/`DegreeToRal` are not inverse, most values lose an arcminute (C34). `DegreeToRal` of a negative angle is 30 degrees low (C35),
  so `MeanSun` is 30 degrees low for days before the year's New Year's day (C36).
* `NormalizeDegree` leaves 360 and negative degrees as they are (C37); `Raek` can leave 1..28 (C38).
* `CyclePos` functions run backwards before 1414 and 1794 (C13). The comment in utils/years-csv.go gives 1985 the "diff 3"; `DeltaAdhikamasa` is 2 (C69).
* The year seams lose a half moon when Kattika is 8 days or less before 1 January, first in 3571/3572 (C25); 1289 has two Magha Pujas and 5835 has no Pavarana; every year between them has each festival once (C24).
* A Kattika full moon that falls into the year counted from it is in no year, first on 2 January 4117 (C23).
* `GetAstroMoons` returns nothing for a range starting before 1900, because it stops at the first missing file (C30);
  it drops the moons of the last day when `to` is a midnight, as the command line always passes (C33), so two runs over adjoining dates miss moons that one run has (C70).
* The embedded data misses moons at 18 year boundaries (C31). The script that fetched it asked for each year up to 31 December, and no moon of a 31 December came back (C72).
  The dates of its records are in British local time, with offsets 0, 1 and 2 hours (C56).
  The script makes up to 22 requests in a minute where its comment says it stays under 10 (C72).
* `GetCalDays` generates only the years of the range as read in the caller's zone; an uposatha of the range that is still in the
  neighbouring year in UTC is missing (C28).
* The Sun's equation of the centre has the wrong sign past 80 degrees (`math.Abs`): `TrueSun` is up to 4.4 degrees too far (C53).
* Before New Year's day the last decimal of `TrueSun` and `TrueMoon` depends on the platform (C75).
* Copies of a `CalDay` share storage: setting a moon on a copy may change the original (C41).
* `FSByte` reports a corrupt asset to the first caller only (C45). The bytes it returns are shared by all callers, so writing to them
  changes the asset for everyone; an open file reports the name by which it was first looked up (C54).
* `yearsCsvSimple` passes nine arguments for seven verbs (C55).
* `AddHalfMoonDays` applied twice duplicates days (C42). Given part of a longer slice it overwrites the days behind that part (C73).
* For events dated in a zone with daylight saving: an uposatha at a midnight eight days before a day without midnight gets its half moon a day early (Sao Paulo, 18 October 2015),
  and an event at midnight on a day of 25 hours ends, in the calendar file, on the day it begins (C74).
* The JSON groups are in text order of the years, which is not numeric order outside four digits (C43).
* The message about a bad date goes to standard output, where the JSON is expected; `--output` empties an existing file before writing, so a failed write loses it; the clock is read separately for the two default dates, so a run over New Year covers two years (C60).
* `main` ignores the error of `app.Run`, so a mistyped flag ends with exit status 0 and no result; a mistyped command prints a dump of two dates, also with status 0 (C76).
* `ical` for a range without events succeeds and writes a calendar without components, which RFC 5545 does not allow (C61).
* The embedded directories list nothing (C62). With `useLocal`, `FS(true).Open("/data")` opens the machine's `/data` and not the one of the
  working directory, and `FSByte(true, ...)` does not close the file it opens (C63).
* The embedded data has no moons for 1900, 1901, 1970 and 2034-2040, ends on 14 May 2033 within 2033, and lacks some moons around New Year (C31, C64).
  With the exceptions in use the half moon of 22 June 1996 is two days early; without them no half moon is more than one day early (C64).

## 5. Wrong programs (seeded/LOG.jsonl)

One line per edit of a model definition, tried in a copy of the development; edits that do not compile are left out.

* `scripts_failed`: the proofs that no longer check. `theorems_failed`: the theorems that are among them or rest on them.
  This is an upper bound. A proof can fail because its script is brittle while its statement is still true, so the list alone does
  not show that each theorem in it is false of the edited program.
* `confirmed_by`: evidence that the edit changes behaviour. `computed`: closed statements proved by computation that failed, which
  are false of the edited program. `witness`: an expression with its value in the model (`model`) and after the edit (`edited`); this shows the two
  programs differ there, not which theorem excludes it. Lines without this field are not confirmed in either way.
* Ids that start with A, B, D or E are edits made by a script (constants, operators, conditions and names exchanged one at a time, over
  all model files). The check of such an edit stops at the first proof that fails outside of the examples, so `scripts_failed` has one
  entry and `theorems_failed` the theorems that rest on it. For F006 to F025 (Fused.v) the check stops likewise, and C75_unfused was tried on its own; it is
  listed where it was seen to fail, and not where it ran into the time limit.
* For F026 to F080 (Args.v, Output.v, CalDay.v) the check goes on after a failure, with the failed proof left out in the copy, so `scripts_failed` lists all
  proofs that fail by themselves. `run` in their witnesses is main_run with the embedded files, clock readings 2016 and 2017, the text
  "Incorrect Usage." for usage errors, "left open" for `other`, both dates for `dump` and the number of events for `encode`; it shows the exit status and the
  first 40 characters of the output. F047 and F048 passed at first; C76_terminator and C76_program_flags were added because of them.
  In the witnesses of F050 to F076 `cal` is caldays_run with the embedded files, for: whether a file can be opened, how many bytes fit, the two clock readings and the
  three flags; `ics` is ical_run with the number of events as text. They show the status, the file f (before: old) and the output. White space in them is shown as one blank.
  `claim` of these has only claims with a theorem that fails by itself; `theorems_failed` also has those that rest on a failed proof, some of which stay true (C77_found for F058, F061, F062).
  `long` in F072 to F074 is the status of caldays and the number of bytes printed, `ical2` in F070 the start dates of the events. The witness tried for F075 did not finish, so that line is not confirmed.
  F077 to F080 are edits that leave the festivals of 2016 unchanged (computed). They were checked only as far as Prop_Calendar.v and Prop_Festivals.v, and `claim` names C24 for C24_late, which rests on
  the proofs that fail; `count` is the number of festivals generated from a given Kattika, `all` that of a year.
* `equivalent`: the edit changes no result; nothing is credited.
* `theorems_tightened`: theorems added or strengthened because of the edit.
