(** Generated by tools/manifest.py: what each theorem listed in MANIFEST.json rests on. *)
From Verif Require Prop_Args Prop_Asalha Prop_Assets Prop_Astro Prop_CalDay Prop_Calendar Prop_Cli Prop_Csv Prop_Cycle Prop_DaySlices Prop_Days Prop_Degree Prop_Equations Prop_Esc Prop_EscLocal Prop_EscOpen Prop_EscUse Prop_Festivals Prop_Formats Prop_Fused Prop_Gzip Prop_Heap Prop_Ical Prop_Join Prop_Json Prop_JsonRead Prop_Kattika Prop_Lost Prop_MachineCal Prop_Members Prop_Misc Prop_MoonScript Prop_Near Prop_Opposition Prop_Output Prop_Path Prop_Period Prop_Program Prop_Program2 Prop_Program3 Prop_Sharp Prop_Summaries Prop_Sun Prop_Title Prop_Year Prop_YearText Prop_YearsMain Prop_Zones.

Print Assumptions Prop_Year.C01_year_ranges.
Print Assumptions Prop_Year.C01_before_era_refuted.
Print Assumptions Prop_Year.C02_horakhun_exact.
Print Assumptions Prop_Year.C03_leap_rule.
Print Assumptions Prop_Year.C03_before_era_refuted.
Print Assumptions Prop_Year.C04_era_cycle.
Print Assumptions Prop_Year.C05_lunar_count_exact.
Print Assumptions Prop_Sharp.C06_exact_range.
Print Assumptions Prop_Sharp.C06_beyond_refuted.
Print Assumptions Prop_Sharp.C06_exact_days.
Print Assumptions Prop_Sharp.C06_days_beyond_refuted.
Print Assumptions Prop_Year.C06_machine_year_exact.
Print Assumptions Prop_Year.C06_machine_day_exact.
Print Assumptions Prop_Year.C06_machine_cycle_exact.
Print Assumptions Prop_Year.C06_overflow_refuted.
Print Assumptions Prop_Year.C07_adhikamasa_spacing.
Print Assumptions Prop_Year.C07_adhikamasa_recurs.
Print Assumptions Prop_Year.C07_delta_adhikamasa_exact.
Print Assumptions Prop_Year.C07_first_year_refuted.
Print Assumptions Prop_Year.C08_months_tracked.
Print Assumptions Prop_Year.C08_metonic_count.
Print Assumptions Prop_Year.C08_always_seven_refuted.
Print Assumptions Prop_Year.C09_year_types_exclusive.
Print Assumptions Prop_Year.C09_year_length.
Print Assumptions Prop_Year.C09_user_table_refuted.
Print Assumptions Prop_Year.C10_missing_tithi.
Print Assumptions Prop_Year.C10_both_work_refuted.
Print Assumptions Prop_Year.C11_carry.
Print Assumptions Prop_Year.C11_balance.
Print Assumptions Prop_Year.C11_spacing.
Print Assumptions Prop_Year.C12_delta_adhikavara_exact.
Print Assumptions Prop_Year.C13_cycle_positions.
Print Assumptions Prop_Year.C13_backwards_refuted.
Print Assumptions Prop_Year.C14_exceptions_local.
Print Assumptions Prop_Year.C14_kattika_shift.
Print Assumptions Prop_Year.C14_asalha_shift.
Print Assumptions Prop_Kattika.C15_kattika_step.
Print Assumptions Prop_Kattika.C15_kattika_epoch.
Print Assumptions Prop_Kattika.C16_kattika_closed_form.
Print Assumptions Prop_Kattika.C16_no_drift.
Print Assumptions Prop_Kattika.C16_drift_from_4099.
Print Assumptions Prop_Kattika.C16_full_moon.
Print Assumptions Prop_Kattika.C17_kattika_previous_year.
Print Assumptions Prop_Kattika.C17_range_is_sharp_refuted.
Print Assumptions Prop_Kattika.C18_asalha_routes.
Print Assumptions Prop_Kattika.C18_asalha_3578_refuted.
Print Assumptions Prop_Kattika.C19_horakhun_to_date.
Print Assumptions Prop_Kattika.C19_horakhun_injective.
Print Assumptions Prop_Calendar.C20_next_uposatha.
Print Assumptions Prop_Calendar.C21_year_closes.
Print Assumptions Prop_Calendar.C21_year_closes_631_4115.
Print Assumptions Prop_Calendar.C21_4116_refuted.
Print Assumptions Prop_Calendar.C22_numbering.
Print Assumptions Prop_Calendar.C23_no_gap.
Print Assumptions Prop_Calendar.C23_each_in_its_year.
Print Assumptions Prop_Calendar.C23_count.
Print Assumptions Prop_Calendar.C23_hypotheses.
Print Assumptions Prop_Lost.C23_kattika_lost.
Print Assumptions Prop_Lost.C23_4117_refuted.
Print Assumptions Prop_Calendar.C24_major_events.
Print Assumptions Prop_Calendar.C24_hypotheses.
Print Assumptions Prop_Calendar.C24_announced.
Print Assumptions Prop_Calendar.C24_1289_refuted.
Print Assumptions Prop_Festivals.C24_late.
Print Assumptions Prop_Festivals.C24_late_hypotheses.
Print Assumptions Prop_Festivals.C24_5835_refuted.
Print Assumptions Prop_Calendar.C25_half_moons.
Print Assumptions Prop_Calendar.C25_between_uposathas.
Print Assumptions Prop_Calendar.C25_none_lost.
Print Assumptions Prop_Calendar.C25_lost_at_seam_refuted.
Print Assumptions Prop_Calendar.C26_terminates.
Print Assumptions Prop_Days.C27_strictly_increasing.
Print Assumptions Prop_Days.C27_returns.
Print Assumptions Prop_Days.C27_any_sort.
Print Assumptions Prop_Days.C28_exact.
Print Assumptions Prop_Days.C28_no_moon_missed.
Print Assumptions Prop_Days.C28_other_zone_refuted.
Print Assumptions Prop_Days.C29_moons.
Print Assumptions Prop_Days.C29_major_events.
Print Assumptions Prop_Astro.C30_exact.
Print Assumptions Prop_Astro.C30_empty_range.
Print Assumptions Prop_Astro.C30_missing_hides_rest.
Print Assumptions Prop_Astro.C30_complete_refuted.
Print Assumptions Prop_Astro.C31_records.
Print Assumptions Prop_Astro.C31_order.
Print Assumptions Prop_Astro.C31_files.
Print Assumptions Prop_Astro.C31_seams.
Print Assumptions Prop_Astro.C31_cyclic_refuted.
Print Assumptions Prop_Astro.C32_never_panics.
Print Assumptions Prop_Astro.C32_complete.
Print Assumptions Prop_Astro.C32_before_1900.
Print Assumptions Prop_Astro.C33_last_day.
Print Assumptions Prop_Astro.C33_witness_refuted.
Print Assumptions Prop_Degree.C34_round_trip.
Print Assumptions Prop_Degree.C34_inverse_refuted.
Print Assumptions Prop_Degree.C35_nonnegative.
Print Assumptions Prop_Degree.C35_negative.
Print Assumptions Prop_Degree.C35_back.
Print Assumptions Prop_Sun.C36_after_new_year.
Print Assumptions Prop_Sun.C36_before_new_year.
Print Assumptions Prop_Degree.C37_above.
Print Assumptions Prop_Degree.C37_below.
Print Assumptions Prop_Degree.C37_range_refuted.
Print Assumptions Prop_Sun.C38_go_sin.
Print Assumptions Prop_Sun.C38_positions.
Print Assumptions Prop_Sun.C38_raek_range_refuted.
Print Assumptions Prop_Misc.C39_day_names.
Print Assumptions Prop_Misc.C39_day_linear.
Print Assumptions Prop_Misc.C39_day_of_year_record.
Print Assumptions Prop_Misc.C39_day_moon.
Print Assumptions Prop_Misc.C39_apogee.
Print Assumptions Prop_Misc.C39_same_day.
Print Assumptions Prop_Misc.C39_kammacubala.
Print Assumptions Prop_CalDay.C40_accessors.
Print Assumptions Prop_CalDay.C40_get_set.
Print Assumptions Prop_CalDay.C40_at_most_one.
Print Assumptions Prop_Heap.C41_merge_refines.
Print Assumptions Prop_Heap.C41_copy_shares.
Print Assumptions Prop_Heap.C41_copy_of_empty.
Print Assumptions Prop_Heap.C41_append_refuted.
Print Assumptions Prop_CalDay.C42_half_moon_days.
Print Assumptions Prop_CalDay.C42_eighth_day.
Print Assumptions Prop_CalDay.C42_twice.
Print Assumptions Prop_CalDay.C42_idempotent_refuted.
Print Assumptions Prop_Cli.C43_groups.
Print Assumptions Prop_Cli.C43_concatenation.
Print Assumptions Prop_Cli.C43_key_order_refuted.
Print Assumptions Prop_Cli.C44_day.
Print Assumptions Prop_Cli.C44_exact.
Print Assumptions Prop_Cli.C44_order.
Print Assumptions Prop_Esc.C45_results.
Print Assumptions Prop_Esc.C45_decoded_once.
Print Assumptions Prop_Esc.C45_completes.
Print Assumptions Prop_Esc.C45_one_error.
Print Assumptions Prop_Esc.C45_error_every_caller_refuted.
Print Assumptions Prop_Esc.C46_injective.
Print Assumptions Prop_Esc.C46_name.
Print Assumptions Prop_Esc.C46_present.
Print Assumptions Prop_Esc.C46_clean_idempotent.
Print Assumptions Prop_Cli.C47_empty.
Print Assumptions Prop_Cli.C47_empty_moon.
Print Assumptions Prop_Cli.C47_day.
Print Assumptions Prop_Cli.C47_injective.
Print Assumptions Prop_Cli.C47_year.
Print Assumptions Prop_Cli.C47_no_season.
Print Assumptions Prop_Summaries.C47_half_moons.
Print Assumptions Prop_Summaries.C47_astro_moons.
Print Assumptions Prop_Title.C47_title.
Print Assumptions Prop_Title.C47_title_length.
Print Assumptions Prop_Misc.C48_months.
Print Assumptions Prop_Misc.C48_seasons.
Print Assumptions Prop_Misc.C48_calendars_statuses.
Print Assumptions Prop_Misc.C48_unknown_names_refuted.
Print Assumptions Prop_Calendar.C49_moon_ages.
Print Assumptions Prop_Opposition.C49_moon_ages_exceptions.
Print Assumptions Prop_Cli.C50_accepts.
Print Assumptions Prop_Cli.C50_reads_back.
Print Assumptions Prop_Cli.C50_range.
Print Assumptions Prop_Cli.C50_default_year.
Print Assumptions Prop_Json.C51_always_prints.
Print Assumptions Prop_Json.C51_output_determines_days.
Print Assumptions Prop_Csv.C52_table.
Print Assumptions Prop_Csv.C52_gaps.
Print Assumptions Prop_Csv.C52_published.
Print Assumptions Prop_YearsMain.C52_main.
Print Assumptions Prop_Equations.C53_constants.
Print Assumptions Prop_Equations.C53_go_sin.
Print Assumptions Prop_Equations.C53_true_sun.
Print Assumptions Prop_Equations.C53_true_moon.
Print Assumptions Prop_Equations.C53_sun_side.
Print Assumptions Prop_Equations.C53_traditional_refuted.
Print Assumptions Prop_EscUse.C54_reads.
Print Assumptions Prop_EscUse.C54_constant.
Print Assumptions Prop_EscUse.C54_absent.
Print Assumptions Prop_EscUse.C54_readers.
Print Assumptions Prop_EscUse.C54_name.
Print Assumptions Prop_EscUse.C54_sequential.
Print Assumptions Prop_EscUse.C54_shared_refuted.
Print Assumptions Prop_EscUse.C54_own_name_refuted.
Print Assumptions Prop_EscUse.C54_dir_refuted.
Print Assumptions Prop_Path.C54_clean.
Print Assumptions Prop_Path.C54_base.
Print Assumptions Prop_YearText.C55_values.
Print Assumptions Prop_YearText.C55_values_injective.
Print Assumptions Prop_YearText.C55_string.
Print Assumptions Prop_YearText.C55_ral_string.
Print Assumptions Prop_YearText.C55_simple.
Print Assumptions Prop_Assets.C56_content.
Print Assumptions Prop_Assets.C56_every_year.
Print Assumptions Prop_Assets.C56_concurrent.
Print Assumptions Prop_Assets.C56_directories.
Print Assumptions Prop_Gzip.C57_round_trip.
Print Assumptions Prop_Gzip.C57_truncated.
Print Assumptions Prop_Gzip.C57_assets_truncated.
Print Assumptions Prop_Gzip.C57_checksum.
Print Assumptions Prop_Gzip.C57_damage.
Print Assumptions Prop_Gzip.C57_header_refuted.
Print Assumptions Prop_JsonRead.C58_grammar.
Print Assumptions Prop_JsonRead.C58_unambiguous.
Print Assumptions Prop_JsonRead.C58_printed.
Print Assumptions Prop_JsonRead.C58_caldays.
Print Assumptions Prop_JsonRead.C58_strings.
Print Assumptions Prop_JsonRead.C58_times.
Print Assumptions Prop_JsonRead.C58_time_round_trip.
Print Assumptions Prop_JsonRead.C58_decoded.
Print Assumptions Prop_JsonRead.C58_accepted.
Print Assumptions Prop_Formats.C59_base64.
Print Assumptions Prop_Formats.C59_deflate.
Print Assumptions Prop_Formats.C59_checksum.
Print Assumptions Prop_Formats.C59_header.
Print Assumptions Prop_Formats.C59_decode.
Print Assumptions Prop_Formats.C59_other.
Print Assumptions Prop_Formats.C59_prefix.
Print Assumptions Prop_Formats.C59_prefix_code.
Print Assumptions Prop_Formats.C59_assets.
Print Assumptions Prop_Output.C60_agrees.
Print Assumptions Prop_Output.C60_file.
Print Assumptions Prop_Output.C60_failure.
Print Assumptions Prop_Output.C60_old_file_kept_refuted.
Print Assumptions Prop_Output.C60_status.
Print Assumptions Prop_Output.C60_stdout.
Print Assumptions Prop_Output.C60_clock.
Print Assumptions Prop_Output.C60_one_year_refuted.
Print Assumptions Prop_Output.C60_ical.
Print Assumptions Prop_Output.C60_ical_failure.
Print Assumptions Prop_Output.C60_message.
Print Assumptions Prop_Ical.C61_unambiguous.
Print Assumptions Prop_Ical.C61_calendar.
Print Assumptions Prop_Ical.C61_last_day.
Print Assumptions Prop_Ical.C61_command.
Print Assumptions Prop_Ical.C61_empty_refuted.
Print Assumptions Prop_EscOpen.C62_reader.
Print Assumptions Prop_EscOpen.C62_determined.
Print Assumptions Prop_EscOpen.C62_size.
Print Assumptions Prop_EscOpen.C62_stat.
Print Assumptions Prop_EscOpen.C62_order.
Print Assumptions Prop_EscOpen.C62_listing_refuted.
Print Assumptions Prop_EscLocal.C63_confined.
Print Assumptions Prop_EscLocal.C63_mirror.
Print Assumptions Prop_EscLocal.C63_opens.
Print Assumptions Prop_EscLocal.C63_relative_refuted.
Print Assumptions Prop_EscLocal.C63_directory_refuted.
Print Assumptions Prop_EscLocal.C63_partial_refuted.
Print Assumptions Prop_EscLocal.C63_closed_refuted.
Print Assumptions Prop_EscLocal.C63_unclosed.
Print Assumptions Prop_Near.C64_every_astronomical.
Print Assumptions Prop_Near.C64_every_calculated.
Print Assumptions Prop_Near.C64_sharp.
Print Assumptions Prop_Near.C64_gaps_refuted.
Print Assumptions Prop_Program3.C64_apart.
Print Assumptions Prop_Members.C65_members.
Print Assumptions Prop_Members.C65_determined.
Print Assumptions Prop_Members.C65_years.
Print Assumptions Prop_MachineCal.C66_year_types.
Print Assumptions Prop_MachineCal.C66_dates.
Print Assumptions Prop_MachineCal.C66_next.
Print Assumptions Prop_MachineCal.C66_generated.
Print Assumptions Prop_MachineCal.C66_cal_days.
Print Assumptions Prop_MachineCal.C66_overflow_refuted.
Print Assumptions Prop_Asalha.C67_same_year.
Print Assumptions Prop_Asalha.C67_range_is_sharp_refuted.
Print Assumptions Prop_Asalha.C67_drift.
Print Assumptions Prop_Asalha.C67_window.
Print Assumptions Prop_Period.C68_every_state_once.
Print Assumptions Prop_Period.C68_period.
Print Assumptions Prop_Period.C68_types.
Print Assumptions Prop_Period.C68_no_shorter.
Print Assumptions Prop_Period.C68_drift.
Print Assumptions Prop_Period.C68_days.
Print Assumptions Prop_Period.C68_counts.
Print Assumptions Prop_Period.C68_moon_kept_refuted.
Print Assumptions Prop_Cycle.C69_months.
Print Assumptions Prop_Cycle.C69_days.
Print Assumptions Prop_Cycle.C69_ranges_are_sharp_refuted.
Print Assumptions Prop_Cycle.C69_no_pattern.
Print Assumptions Prop_Join.C70_join.
Print Assumptions Prop_Join.C70_embedded.
Print Assumptions Prop_Join.C70_midnights_refuted.
Print Assumptions Prop_Join.C70_before_the_data_refuted.
Print Assumptions Prop_Opposition.C71_distance.
Print Assumptions Prop_Opposition.C71_every_day.
Print Assumptions Prop_Opposition.C71_place.
Print Assumptions Prop_Opposition.C71_place_exceptions.
Print Assumptions Prop_Opposition.C71_opposition.
Print Assumptions Prop_Opposition.C71_within_a_lunar_day_refuted.
Print Assumptions Prop_MoonScript.C72_ends.
Print Assumptions Prop_MoonScript.C72_years.
Print Assumptions Prop_MoonScript.C72_rate.
Print Assumptions Prop_MoonScript.C72_ten_a_minute_refuted.
Print Assumptions Prop_MoonScript.C72_daily_limit_refuted.
Print Assumptions Prop_MoonScript.C72_files.
Print Assumptions Prop_MoonScript.C72_names.
Print Assumptions Prop_MoonScript.C72_refuses.
Print Assumptions Prop_MoonScript.C72_terminal.
Print Assumptions Prop_MoonScript.C72_address.
Print Assumptions Prop_MoonScript.C72_escaped_refuted.
Print Assumptions Prop_MoonScript.C72_limit.
Print Assumptions Prop_MoonScript.C72_last_day_lost.
Print Assumptions Prop_DaySlices.C73_value.
Print Assumptions Prop_DaySlices.C73_others.
Print Assumptions Prop_DaySlices.C73_overwrites.
Print Assumptions Prop_DaySlices.C73_capped.
Print Assumptions Prop_DaySlices.C73_no_room.
Print Assumptions Prop_DaySlices.C73_part.
Print Assumptions Prop_DaySlices.C73_swaps.
Print Assumptions Prop_DaySlices.C73_keeps_the_rest_refuted.
Print Assumptions Prop_DaySlices.C73_sorting_keeps_the_given_refuted.
Print Assumptions Prop_Zones.C74_find.
Print Assumptions Prop_Zones.C74_merge.
Print Assumptions Prop_Zones.C74_half_moons.
Print Assumptions Prop_Zones.C74_last_day.
Print Assumptions Prop_Zones.C74_fixed.
Print Assumptions Prop_Zones.C74_eighth_day_refuted.
Print Assumptions Prop_Zones.C74_end_refuted.
Print Assumptions Prop_Zones.C74_date_line_refuted.
Print Assumptions Prop_Fused.C75_unfused.
Print Assumptions Prop_Fused.C75_go_sin.
Print Assumptions Prop_Fused.C75_mean.
Print Assumptions Prop_Fused.C75_equations.
Print Assumptions Prop_Fused.C75_sun.
Print Assumptions Prop_Fused.C75_sun_sines.
Print Assumptions Prop_Fused.C75_moon.
Print Assumptions Prop_Fused.C75_sun_before_refuted.
Print Assumptions Prop_Args.C76_flags.
Print Assumptions Prop_Args.C76_understood.
Print Assumptions Prop_Args.C76_rejected.
Print Assumptions Prop_Args.C76_usage.
Print Assumptions Prop_Args.C76_status_refuted.
Print Assumptions Prop_Args.C76_forgotten_value_refuted.
Print Assumptions Prop_Args.C76_no_command.
Print Assumptions Prop_Args.C76_before_command.
Print Assumptions Prop_Args.C76_terminator.
Print Assumptions Prop_Args.C76_program_flags.
Print Assumptions Prop_Args.C76_left_open.
Print Assumptions Prop_Program.C77_found.
Print Assumptions Prop_Program2.C77_astronomical.
Print Assumptions Prop_Program2.C77_year.
Print Assumptions Prop_Program2.C78_calendar.
Print Assumptions Prop_Program3.C79_astronomical.
Print Assumptions Prop_Program3.C79_calculated.
Print Assumptions Prop_Program3.C79_margin_refuted.
