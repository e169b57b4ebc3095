{
 "claims": [
  {
   "property": "C01",
   "status": "proved",
   "theorems": [
    "C01_year_ranges",
    "C01_before_era_refuted"
   ],
   "note": "All years from 638; C01_before_era_refuted shows the ranges fail in 637."
  },
  {
   "property": "C02",
   "status": "proved",
   "theorems": [
    "C02_horakhun_exact"
   ],
   "note": ""
  },
  {
   "property": "C03",
   "status": "proved",
   "theorems": [
    "C03_leap_rule",
    "C03_before_era_refuted"
   ],
   "note": ""
  },
  {
   "property": "C04",
   "status": "proved",
   "theorems": [
    "C04_era_cycle"
   ],
   "note": ""
  },
  {
   "property": "C05",
   "status": "proved",
   "theorems": [
    "C05_lunar_count_exact"
   ],
   "note": ""
  },
  {
   "property": "C06",
   "status": "proved",
   "theorems": [
    "C06_exact_range",
    "C06_beyond_refuted",
    "C06_exact_days",
    "C06_days_beyond_refuted",
    "C06_machine_year_exact",
    "C06_machine_day_exact",
    "C06_machine_cycle_exact",
    "C06_overflow_refuted"
   ],
   "note": "Wrapping int64 and IEEE binary64 transcriptions (Machine.v) equal the exact integers for |year|,|day| <= 10^12."
  },
  {
   "property": "C07",
   "status": "proved",
   "theorems": [
    "C07_adhikamasa_spacing",
    "C07_adhikamasa_recurs",
    "C07_delta_adhikamasa_exact",
    "C07_first_year_refuted"
   ],
   "note": ""
  },
  {
   "property": "C08",
   "status": "proved",
   "theorems": [
    "C08_months_tracked",
    "C08_metonic_count",
    "C08_always_seven_refuted"
   ],
   "note": ""
  },
  {
   "property": "C09",
   "status": "proved",
   "theorems": [
    "C09_year_types_exclusive",
    "C09_year_length",
    "C09_user_table_refuted"
   ],
   "note": ""
  },
  {
   "property": "C10",
   "status": "proved",
   "theorems": [
    "C10_missing_tithi",
    "C10_both_work_refuted"
   ],
   "note": "The rule of the source (<=) is characterised exactly; the source comment that < works equally is refuted at 3577."
  },
  {
   "property": "C11",
   "status": "proved",
   "theorems": [
    "C11_carry",
    "C11_balance",
    "C11_spacing"
   ],
   "note": ""
  },
  {
   "property": "C12",
   "status": "proved",
   "theorems": [
    "C12_delta_adhikavara_exact"
   ],
   "note": ""
  },
  {
   "property": "C13",
   "status": "proved",
   "theorems": [
    "C13_cycle_positions",
    "C13_backwards_refuted"
   ],
   "note": ""
  },
  {
   "property": "C14",
   "status": "proved",
   "theorems": [
    "C14_exceptions_local",
    "C14_kattika_shift",
    "C14_asalha_shift"
   ],
   "note": ""
  },
  {
   "property": "C15",
   "status": "proved",
   "theorems": [
    "C15_kattika_step",
    "C15_kattika_epoch"
   ],
   "note": ""
  },
  {
   "property": "C16",
   "status": "proved",
   "theorems": [
    "C16_kattika_closed_form",
    "C16_no_drift",
    "C16_drift_from_4099",
    "C16_full_moon"
   ],
   "note": "Closed form for every year from 640, with the exact drift after boundary years; drift is 0 in 640..4098 except 3578."
  },
  {
   "property": "C17",
   "status": "proved",
   "theorems": [
    "C17_kattika_previous_year",
    "C17_range_is_sharp_refuted"
   ],
   "note": ""
  },
  {
   "property": "C18",
   "status": "proved",
   "theorems": [
    "C18_asalha_routes",
    "C18_asalha_3578_refuted"
   ],
   "note": "Agreement in 640..4098 except 3578, where the two routes are proved to differ by a day."
  },
  {
   "property": "C19",
   "status": "proved",
   "theorems": [
    "C19_horakhun_to_date",
    "C19_horakhun_injective"
   ],
   "note": ""
  },
  {
   "property": "C20",
   "status": "proved",
   "theorems": [
    "C20_next_uposatha"
   ],
   "note": ""
  },
  {
   "property": "C21",
   "status": "proved",
   "theorems": [
    "C21_year_closes",
    "C21_year_closes_631_4115",
    "C21_4116_refuted"
   ],
   "note": ""
  },
  {
   "property": "C22",
   "status": "proved",
   "theorems": [
    "C22_numbering"
   ],
   "note": ""
  },
  {
   "property": "C23",
   "status": "proved",
   "theorems": [
    "C23_no_gap",
    "C23_each_in_its_year",
    "C23_count",
    "C23_hypotheses",
    "C23_kattika_lost",
    "C23_4117_refuted"
   ],
   "note": ""
  },
  {
   "property": "C24",
   "status": "proved",
   "theorems": [
    "C24_major_events",
    "C24_hypotheses",
    "C24_announced",
    "C24_1289_refuted",
    "C24_late",
    "C24_late_hypotheses",
    "C24_5835_refuted"
   ],
   "note": ""
  },
  {
   "property": "C25",
   "status": "proved",
   "theorems": [
    "C25_half_moons",
    "C25_between_uposathas",
    "C25_none_lost",
    "C25_lost_at_seam_refuted"
   ],
   "note": ""
  },
  {
   "property": "C26",
   "status": "proved",
   "theorems": [
    "C26_terminates"
   ],
   "note": ""
  },
  {
   "property": "C27",
   "status": "proved",
   "theorems": [
    "C27_strictly_increasing",
    "C27_returns",
    "C27_any_sort"
   ],
   "note": ""
  },
  {
   "property": "C28",
   "status": "proved",
   "theorems": [
    "C28_exact",
    "C28_no_moon_missed",
    "C28_other_zone_refuted"
   ],
   "note": ""
  },
  {
   "property": "C29",
   "status": "proved",
   "theorems": [
    "C29_moons",
    "C29_major_events"
   ],
   "note": ""
  },
  {
   "property": "C30",
   "status": "proved",
   "theorems": [
    "C30_exact",
    "C30_empty_range",
    "C30_missing_hides_rest",
    "C30_complete_refuted"
   ],
   "note": ""
  },
  {
   "property": "C31",
   "status": "proved",
   "theorems": [
    "C31_records",
    "C31_order",
    "C31_files",
    "C31_seams",
    "C31_cyclic_refuted"
   ],
   "note": ""
  },
  {
   "property": "C32",
   "status": "proved",
   "theorems": [
    "C32_never_panics",
    "C32_complete",
    "C32_before_1900"
   ],
   "note": ""
  },
  {
   "property": "C33",
   "status": "proved",
   "theorems": [
    "C33_last_day",
    "C33_witness_refuted"
   ],
   "note": ""
  },
  {
   "property": "C34",
   "status": "proved",
   "theorems": [
    "C34_round_trip",
    "C34_inverse_refuted"
   ],
   "note": ""
  },
  {
   "property": "C35",
   "status": "proved",
   "theorems": [
    "C35_nonnegative",
    "C35_negative",
    "C35_back"
   ],
   "note": ""
  },
  {
   "property": "C36",
   "status": "proved",
   "theorems": [
    "C36_after_new_year",
    "C36_before_new_year"
   ],
   "note": ""
  },
  {
   "property": "C37",
   "status": "proved",
   "theorems": [
    "C37_above",
    "C37_below",
    "C37_range_refuted"
   ],
   "note": ""
  },
  {
   "property": "C38",
   "status": "proved",
   "theorems": [
    "C38_go_sin",
    "C38_positions",
    "C38_raek_range_refuted"
   ],
   "note": ""
  },
  {
   "property": "C39",
   "status": "proved",
   "theorems": [
    "C39_day_names",
    "C39_day_linear",
    "C39_day_of_year_record",
    "C39_day_moon",
    "C39_apogee",
    "C39_same_day",
    "C39_kammacubala"
   ],
   "note": ""
  },
  {
   "property": "C40",
   "status": "proved",
   "theorems": [
    "C40_accessors",
    "C40_get_set",
    "C40_at_most_one"
   ],
   "note": ""
  },
  {
   "property": "C41",
   "status": "proved",
   "theorems": [
    "C41_merge_refines",
    "C41_copy_shares",
    "C41_copy_of_empty",
    "C41_append_refuted"
   ],
   "note": ""
  },
  {
   "property": "C42",
   "status": "proved",
   "theorems": [
    "C42_half_moon_days",
    "C42_eighth_day",
    "C42_twice",
    "C42_idempotent_refuted"
   ],
   "note": ""
  },
  {
   "property": "C43",
   "status": "proved",
   "theorems": [
    "C43_groups",
    "C43_concatenation",
    "C43_key_order_refuted"
   ],
   "note": ""
  },
  {
   "property": "C44",
   "status": "proved",
   "theorems": [
    "C44_day",
    "C44_exact",
    "C44_order"
   ],
   "note": ""
  },
  {
   "property": "C45",
   "status": "proved",
   "theorems": [
    "C45_results",
    "C45_decoded_once",
    "C45_completes",
    "C45_one_error",
    "C45_error_every_caller_refuted"
   ],
   "note": ""
  },
  {
   "property": "C46",
   "status": "proved",
   "theorems": [
    "C46_injective",
    "C46_name",
    "C46_present",
    "C46_clean_idempotent"
   ],
   "note": ""
  },
  {
   "property": "C47",
   "status": "proved",
   "theorems": [
    "C47_empty",
    "C47_empty_moon",
    "C47_day",
    "C47_injective",
    "C47_year",
    "C47_no_season",
    "C47_half_moons",
    "C47_astro_moons",
    "C47_title",
    "C47_title_length"
   ],
   "note": ""
  },
  {
   "property": "C48",
   "status": "proved",
   "theorems": [
    "C48_months",
    "C48_seasons",
    "C48_calendars_statuses",
    "C48_unknown_names_refuted"
   ],
   "note": ""
  },
  {
   "property": "C49",
   "status": "proved",
   "theorems": [
    "C49_moon_ages",
    "C49_moon_ages_exceptions"
   ],
   "note": ""
  },
  {
   "property": "C50",
   "status": "proved",
   "theorems": [
    "C50_accepts",
    "C50_reads_back",
    "C50_range",
    "C50_default_year"
   ],
   "note": ""
  },
  {
   "property": "C51",
   "status": "proved",
   "theorems": [
    "C51_always_prints",
    "C51_output_determines_days"
   ],
   "note": ""
  },
  {
   "property": "C52",
   "status": "proved",
   "theorems": [
    "C52_table",
    "C52_gaps",
    "C52_published",
    "C52_main"
   ],
   "note": ""
  },
  {
   "property": "C53",
   "status": "proved",
   "theorems": [
    "C53_constants",
    "C53_go_sin",
    "C53_true_sun",
    "C53_true_moon",
    "C53_sun_side",
    "C53_traditional_refuted"
   ],
   "note": ""
  },
  {
   "property": "C54",
   "status": "proved",
   "theorems": [
    "C54_reads",
    "C54_constant",
    "C54_absent",
    "C54_readers",
    "C54_name",
    "C54_sequential",
    "C54_shared_refuted",
    "C54_own_name_refuted",
    "C54_dir_refuted",
    "C54_clean",
    "C54_base"
   ],
   "note": ""
  },
  {
   "property": "C55",
   "status": "proved",
   "theorems": [
    "C55_values",
    "C55_values_injective",
    "C55_string",
    "C55_ral_string",
    "C55_simple"
   ],
   "note": ""
  },
  {
   "property": "C56",
   "status": "proved",
   "theorems": [
    "C56_content",
    "C56_every_year",
    "C56_concurrent",
    "C56_directories"
   ],
   "note": ""
  },
  {
   "property": "C57",
   "status": "proved",
   "theorems": [
    "C57_round_trip",
    "C57_truncated",
    "C57_assets_truncated",
    "C57_checksum",
    "C57_damage",
    "C57_header_refuted"
   ],
   "note": "The round trip here is for an encoder with stored blocks; C59 gives the decoder's result for every text of the format."
  },
  {
   "property": "C58",
   "status": "proved",
   "theorems": [
    "C58_grammar",
    "C58_unambiguous",
    "C58_printed",
    "C58_caldays",
    "C58_strings",
    "C58_times",
    "C58_time_round_trip",
    "C58_decoded",
    "C58_accepted"
   ],
   "note": "The reader is proved equivalent to the grammar and meaning in SpecJson.v for all byte strings. Strings: every string of the grammar has one meaning, halves of surrogate pairs included; the meaning of names and strings is told by that relation, not by the decoder."
  },
  {
   "property": "C59",
   "status": "proved",
   "theorems": [
    "C59_base64",
    "C59_deflate",
    "C59_checksum",
    "C59_header",
    "C59_decode",
    "C59_other",
    "C59_prefix",
    "C59_prefix_code",
    "C59_assets"
   ],
   "note": "Both directions for every byte string. SpecFlate.v mentions no decoder, but follows Go's packages where they are laxer or stricter than the RFCs; see the statement."
  },
  {
   "property": "C60",
   "status": "proved",
   "theorems": [
    "C60_agrees",
    "C60_file",
    "C60_failure",
    "C60_old_file_kept_refuted",
    "C60_status",
    "C60_stdout",
    "C60_clock",
    "C60_one_year_refuted",
    "C60_ical",
    "C60_ical_failure",
    "C60_message"
   ],
   "note": "Flag parsing is not modelled; the text of the ical command is any function of the events here, C61 is about the text. Opening and writing are described by whether the name can be opened and how many bytes fit; a failed open changes nothing. That the message of time.Parse starts with 'parsing time ' is from knowledge of Go, whose sources are not in the sandbox."
  },
  {
   "property": "C61",
   "status": "proved",
   "theorems": [
    "C61_unambiguous",
    "C61_calendar",
    "C61_last_day",
    "C61_command",
    "C61_empty_refuted"
   ],
   "note": "The text is that of the recorded .ical file, since the ical package is not in /repo; C61_example reproduces the recording byte for byte for a window of ten weeks. A UID longer than 71 octets would make a line too long; the UUIDs of the program have 36."
  },
  {
   "property": "C62",
   "status": "proved",
   "theorems": [
    "C62_reader",
    "C62_determined",
    "C62_size",
    "C62_stat",
    "C62_order",
    "C62_listing_refuted"
   ],
   "note": "The offsets are int64 and the file is shorter than 2^63 bytes. bytes.Reader is modelled as of Go 1.4 and later, where Seek has no limit of 2^31."
  },
  {
   "property": "C63",
   "status": "proved",
   "theorems": [
    "C63_confined",
    "C63_mirror",
    "C63_opens",
    "C63_relative_refuted",
    "C63_directory_refuted",
    "C63_partial_refuted",
    "C63_closed_refuted",
    "C63_unclosed"
   ],
   "note": "The disk is a parameter that does not change during a call. What is done with the *os.File returned by Open is not modelled. A Go file that is never closed is closed by its finalizer at some later time; this is not modelled. The directories' absolute paths and the missing Close are findings."
  },
  {
   "property": "C64",
   "status": "proved",
   "theorems": [
    "C64_every_astronomical",
    "C64_every_calculated",
    "C64_sharp",
    "C64_gaps_refuted",
    "C64_apart"
   ],
   "note": "Days are UTC days. The astronomical moons are those of embedded_moons, which C31 and C56 tie to the files; that the data is itself right is not proved."
  },
  {
   "property": "C65",
   "status": "proved",
   "theorems": [
    "C65_members",
    "C65_determined",
    "C65_years"
   ],
   "note": "Stated with the grammar and meaning relations of C58, independently of the printing functions. U+2028, U+2029 and invalid UTF-8, which no string of the library contains, are not modelled in the printer."
  },
  {
   "property": "C66",
   "status": "proved",
   "theorems": [
    "C66_year_types",
    "C66_dates",
    "C66_next",
    "C66_generated",
    "C66_cal_days",
    "C66_overflow_refuted"
   ],
   "note": "Year, AddDate and time.Date are modelled exactly in both versions; Go's own limit is the year 2.9*10^11."
  },
  {
   "property": "C67",
   "status": "proved",
   "theorems": [
    "C67_same_year",
    "C67_range_is_sharp_refuted",
    "C67_drift",
    "C67_window"
   ],
   "note": ""
  },
  {
   "property": "C68",
   "status": "proved",
   "theorems": [
    "C68_every_state_once",
    "C68_period",
    "C68_types",
    "C68_no_shorter",
    "C68_drift",
    "C68_days",
    "C68_counts",
    "C68_moon_kept_refuted"
   ],
   "note": ""
  },
  {
   "property": "C69",
   "status": "proved",
   "theorems": [
    "C69_months",
    "C69_days",
    "C69_ranges_are_sharp_refuted",
    "C69_no_pattern"
   ],
   "note": ""
  },
  {
   "property": "C70",
   "status": "proved",
   "theorems": [
    "C70_join",
    "C70_embedded",
    "C70_midnights_refuted",
    "C70_before_the_data_refuted"
   ],
   "note": ""
  },
  {
   "property": "C71",
   "status": "proved",
   "theorems": [
    "C71_distance",
    "C71_every_day",
    "C71_place",
    "C71_place_exceptions",
    "C71_opposition",
    "C71_within_a_lunar_day_refuted"
   ],
   "note": ""
  },
  {
   "property": "C72",
   "status": "proved",
   "theorems": [
    "C72_ends",
    "C72_years",
    "C72_rate",
    "C72_ten_a_minute_refuted",
    "C72_daily_limit_refuted",
    "C72_files",
    "C72_names",
    "C72_refuses",
    "C72_terminal",
    "C72_address",
    "C72_escaped_refuted",
    "C72_limit",
    "C72_last_day_lost"
   ],
   "note": ""
  },
  {
   "property": "C73",
   "status": "proved",
   "theorems": [
    "C73_value",
    "C73_others",
    "C73_overwrites",
    "C73_capped",
    "C73_no_room",
    "C73_part",
    "C73_swaps",
    "C73_keeps_the_rest_refuted",
    "C73_sorting_keeps_the_given_refuted"
   ],
   "note": ""
  },
  {
   "property": "C74",
   "status": "proved",
   "theorems": [
    "C74_find",
    "C74_merge",
    "C74_half_moons",
    "C74_last_day",
    "C74_fixed",
    "C74_eighth_day_refuted",
    "C74_end_refuted",
    "C74_date_line_refuted"
   ],
   "note": ""
  },
  {
   "property": "C75",
   "status": "proved",
   "theorems": [
    "C75_unfused",
    "C75_go_sin",
    "C75_mean",
    "C75_equations",
    "C75_sun",
    "C75_sun_sines",
    "C75_moon",
    "C75_sun_before_refuted"
   ],
   "note": "math.Sin is Cephes' routine below the threshold of its second reduction. Fusing the product a*radconv into math.Sin itself, which would need that function inlined, is not modelled."
  },
  {
   "property": "C76",
   "status": "proved",
   "theorems": [
    "C76_flags",
    "C76_understood",
    "C76_rejected",
    "C76_usage",
    "C76_status_refuted",
    "C76_forgotten_value_refuted",
    "C76_no_command",
    "C76_before_command",
    "C76_terminator",
    "C76_program_flags",
    "C76_left_open"
   ],
   "note": "The cli and flag packages are not in the sandbox; what they do is transcribed from knowledge of them, for versions of cli from 1.17 on and before 1.21 (later ones reorder arguments)."
  },
  {
   "property": "C77",
   "status": "proved",
   "theorems": [
    "C77_found",
    "C77_astronomical",
    "C77_year"
   ],
   "note": "Rests on the model of the cli and flag packages (see C76)."
  },
  {
   "property": "C78",
   "status": "proved",
   "theorems": [
    "C78_calendar"
   ],
   "note": "Rests on the models of the cli and flag packages (see C76) and of the ical package (see C61), which are not in the sandbox."
  },
  {
   "property": "C79",
   "status": "proved",
   "theorems": [
    "C79_astronomical",
    "C79_calculated",
    "C79_margin_refuted"
   ],
   "note": "Rests on the model of the cli and flag packages (see C76)."
  }
 ]
}