{
 "claims": [
  {
   "property": "C01",
   "status": "proved",
   "theorems": [
    "C01_header_gate"
   ],
   "note": "every arithmetic"
  },
  {
   "property": "C02",
   "status": "proved",
   "theorems": [
    "C02_accepted_valid"
   ],
   "note": "every arithmetic, every text-to-float function, every key order"
  },
  {
   "property": "C03",
   "status": "proved",
   "theorems": [
    "C03_acceptance"
   ],
   "note": "every arithmetic, every key order"
  },
  {
   "property": "C04",
   "status": "proved",
   "theorems": [
    "C04_kept_or_blanked"
   ],
   "note": "every arithmetic, every key order"
  },
  {
   "property": "C05",
   "status": "partial",
   "theorems": [
    "C05_ellipse_all_or_nothing_refuted",
    "C05_ellipse_all_or_nothing_partial",
    "C05_ellipse_outcome"
   ],
   "note": "REFUTED in CPython 2.7 key order: negative SemiMinor90 blanked, the others kept; holds when negative axes are visited before ErrorStrike; C05_ellipse_outcome lists every outcome"
  },
  {
   "property": "C06",
   "status": "proved",
   "theorems": [
    "C06_whole_read",
    "C06_first_bad_row"
   ],
   "note": "every file"
  },
  {
   "property": "C07",
   "status": "partial",
   "theorems": [
    "C07_located_errors_refuted",
    "C07_located_errors_partial"
   ],
   "note": "REFUTED: an unreadable compulsory float raises TypeError, and blank lines are not counted in the line number; otherwise as stated"
  },
  {
   "property": "C08",
   "status": "partial",
   "theorems": [
    "C08_dates_exist_refuted",
    "C08_dates_exist_partial"
   ],
   "note": "REFUTED: 0 February and 31 April are accepted; at most 29 in February and 1..31 elsewhere holds"
  },
  {
   "property": "C09",
   "status": "proved",
   "theorems": [
    "C09_ragged_rows",
    "C09_ragged_files"
   ],
   "note": "every arithmetic, every key order"
  },
  {
   "property": "C10",
   "status": "partial",
   "theorems": [
    "C10_finite_magnitude_refuted",
    "C10_finite_magnitude_partial"
   ],
   "note": "REFUTED in binary64: Mw nan is accepted; longitude and latitude are finite and depth is not NaN"
  },
  {
   "property": "C11",
   "status": "proved",
   "theorems": [
    "C11_csv_round_trip",
    "C11_csv_round_trip_cpython"
   ],
   "note": "generic theorem assumes float(repr(x)) == x for numbers that were read; the second theorem has no such assumption: the round trip of repr is proved for CPython's algorithms on binary64"
  },
  {
   "property": "C12",
   "status": "proved",
   "theorems": [
    "C12_selection_vector_meaning"
   ],
   "note": "for every arithmetic"
  },
  {
   "property": "C13",
   "status": "proved",
   "theorems": [
    "C13_removed_events_are_incomplete"
   ],
   "note": "over the reals"
  },
  {
   "property": "C14",
   "status": "partial",
   "theorems": [
    "C14_kept_events_are_complete_refuted",
    "C14_kept_events_are_complete_partial"
   ],
   "note": "REFUTED: a recent event below every tabulated magnitude is kept; strongest true weakening: each row is satisfied in year or in magnitude"
  },
  {
   "property": "C15",
   "status": "proved",
   "theorems": [
    "C15_gk_succeeds",
    "C15_gk_shape"
   ],
   "note": "for every arithmetic and every sort"
  },
  {
   "property": "C16",
   "status": "proved",
   "theorems": [
    "C16_gk_clusters_in_window",
    "C16_gk_one_kept_per_cluster"
   ],
   "note": "for every arithmetic and every sort"
  },
  {
   "property": "C17",
   "status": "proved",
   "theorems": [
    "C17_gk_never_empties"
   ],
   "note": "for every arithmetic and every sort"
  },
  {
   "property": "C18",
   "status": "proved",
   "theorems": [
    "C18_gk_isolated_events_kept",
    "C18_gk_unclustered_events_are_isolated"
   ],
   "note": "for every arithmetic and every sort"
  },
  {
   "property": "C19",
   "status": "partial",
   "theorems": [
    "C19_largest_kept_refuted",
    "C19_largest_kept_partial"
   ],
   "note": "REFUTED: with foreshock proportion 0 an M7 is purged in favour of an M5 one day earlier (the algorithm removes an event from consideration once clustered); strongest true weakening: the largest event of the catalogue is kept when its windows cover all others in both time directions"
  },
  {
   "property": "C20",
   "status": "proved",
   "theorems": [
    "C20_gk_foreshock_window",
    "C20_gk_no_foreshocks_without_window"
   ],
   "note": "over the reals"
  },
  {
   "property": "C21",
   "status": "proved",
   "theorems": [
    "C21_gk_row_order_irrelevant",
    "C21_afteran_row_order_irrelevant"
   ],
   "note": "over the reals; with equal magnitudes the order matters, see C101"
  },
  {
   "property": "C22",
   "status": "proved",
   "theorems": [
    "C22_afteran_succeeds",
    "C22_afteran_one_main_shock"
   ],
   "note": "over the reals"
  },
  {
   "property": "C23",
   "status": "proved",
   "theorems": [
    "C23_afteran_shape"
   ],
   "note": "for every arithmetic and every sort"
  },
  {
   "property": "C24",
   "status": "partial",
   "theorems": [
    "C24_afteran_members_near_main_refuted",
    "C24_afteran_members_near_main_partial"
   ],
   "note": "REFUTED: the member's distance is measured from the seed event, not from the kept event; strongest true weakening: within twice the distance window"
  },
  {
   "property": "C25",
   "status": "partial",
   "theorems": [
    "C25_aftershock_chain",
    "C25_foreshock_chain_refuted",
    "C25_foreshock_chain_partial"
   ],
   "note": "aftershock half proved for every arithmetic; foreshock half REFUTED (an event right after an aftershock in the list is skipped); weakening: no false marks, no missed event unless the preceding one is an aftershock"
  },
  {
   "property": "C26",
   "status": "partial",
   "theorems": [
    "C26_windows_grow_refuted",
    "C26_windows_grow_partial"
   ],
   "note": "REFUTED: the Gardner-Knopoff time window drops at M6.5; everything else in the claim is proved"
  },
  {
   "property": "C27",
   "status": "proved",
   "theorems": [
    "C27_decimal_year_in_year",
    "C27_decimal_year_order",
    "C27_catalogue"
   ],
   "note": "over the reals; 29 February ties with 1 March"
  },
  {
   "property": "C28",
   "status": "proved",
   "theorems": [
    "C28_haversine",
    "C28_haversine_symmetric",
    "C28_default"
   ],
   "note": "over the reals"
  },
  {
   "property": "C29",
   "status": "partial",
   "theorems": [
    "C29_consecutive_days_refuted",
    "C29_julian_day_value",
    "C29_consecutive_days_partial",
    "C29_ordinal_counts_days"
   ],
   "note": "REFUTED: 1900-02-28 and 1900-03-01 differ by 2; exact value of the function proved for every date"
  },
  {
   "property": "C30",
   "status": "proved",
   "theorems": [
    "C30_stepp_table_shape",
    "C30_stepp_empty_catalogue"
   ],
   "note": "over the reals; exact outcome incl. the exceptional cases"
  },
  {
   "property": "C31",
   "status": "proved",
   "theorems": [
    "C31_stepp_duration_chosen",
    "C31_stepp_lock_monotone"
   ],
   "note": "over the reals; the slope test is stated from the method's description in SteppSpec.v"
  },
  {
   "property": "C32",
   "status": "proved",
   "theorems": [
    "C32_stepp_counts_every_event_once"
   ],
   "note": "over the reals"
  },
  {
   "property": "C33",
   "status": "proved",
   "theorems": [
    "C33_stepp_ignores_event_order"
   ],
   "note": "over the reals"
  },
  {
   "property": "C34",
   "status": "partial",
   "theorems": [
    "C34_last_violating_duration_refuted",
    "C34_last_violating_duration_partial"
   ],
   "note": "REFUTED: a violation at the first duration only is ignored; proved for every later position"
  },
  {
   "property": "C35",
   "status": "proved",
   "theorems": [
    "C35_recurrence_table",
    "C35_recurrence_cumulative"
   ],
   "note": "over the reals"
  },
  {
   "property": "C36",
   "status": "proved",
   "theorems": [
    "C36_b_maximum_likelihood",
    "C36_b_shift_invariant"
   ],
   "note": "over the reals; at least one complete event"
  },
  {
   "property": "C37",
   "status": "proved",
   "theorems": [
    "C37_b_time_weighted_mean",
    "C37_b_time_succeeds"
   ],
   "note": "over the reals; rows of one year adjacent (see C38)"
  },
  {
   "property": "C38",
   "status": "partial",
   "theorems": [
    "C38_every_period_used_refuted",
    "C38_every_period_used_partial",
    "C38_stepp_tables_grouped"
   ],
   "note": "REFUTED for tables in which the rows of a year are not adjacent: a period is skipped; strongest true weakening: adjacent equal years (met by Stepp tables with the increment lock)"
  },
  {
   "property": "C39",
   "status": "proved",
   "theorems": [
    "C39_weichert_prep",
    "C39_weichert_counts_at_most_all"
   ],
   "note": "over the reals"
  },
  {
   "property": "C40",
   "status": "partial",
   "theorems": [
    "C40_complete_events_counted_refuted",
    "C40_complete_events_counted_partial"
   ],
   "note": "REFUTED: a complete event in a time bin that starts before the completeness year is dropped; strongest true weakening: steps on bin edges"
  },
  {
   "property": "C41",
   "status": "proved",
   "theorems": [
    "C41_weichert_result"
   ],
   "note": "over the reals"
  },
  {
   "property": "C42",
   "status": "partial",
   "theorems": [
    "C42_weichert_terminates_refuted",
    "C42_weichert_extreme_bin_diverges",
    "C42_weichert_default_start_diverges",
    "C42_weichert_terminates_partial",
    "C42_weichert_returns_partial"
   ],
   "note": "REFUTED: never returns when all complete events are in the lowest or highest bin, and diverges from the default start 1.5 for two bins with one event each; otherwise the estimate exists, is unique and the iteration returns from every start near it, and for equally spaced bins from every start in an explicit range (default start and counts 100, 10, 1 included). Missing: an exact description of all starts from which it returns"
  },
  {
   "property": "C43",
   "status": "proved",
   "theorems": [
    "C43_recurrence_dispatch"
   ],
   "note": "for every arithmetic"
  },
  {
   "property": "C44",
   "status": "proved",
   "theorems": [
    "C44_hastings_central"
   ],
   "note": "over the reals"
  },
  {
   "property": "C45",
   "status": "partial",
   "theorems": [
    "C45_distribution_function_refuted",
    "C45_distribution_function_partial"
   ],
   "note": "REFUTED: value 1 more than five deviations below the mean; proved elsewhere"
  },
  {
   "property": "C46",
   "status": "proved",
   "theorems": [
    "C46_exponential_points"
   ],
   "note": "over the reals"
  },
  {
   "property": "C47",
   "status": "proved",
   "theorems": [
    "C47_kijko_result"
   ],
   "note": "over the reals"
  },
  {
   "property": "C48",
   "status": "partial",
   "theorems": [
    "C48_increment_refuted",
    "C48_increment_partial",
    "C77_kijko_at_least_observed"
   ],
   "note": "REFUTED: the code's distribution function leaves [0,1] so Mmax may be below the observed maximum; the bound for values in [0,1] is proved, and C77 gives a condition under which Mmax is at least the observed maximum"
  },
  {
   "property": "C49",
   "status": "proved",
   "theorems": [
    "C49_cumulative_moment",
    "C49_order_irrelevant",
    "C49_shift"
   ],
   "note": "over the reals"
  },
  {
   "property": "C50",
   "status": "proved",
   "theorems": [
    "C50_bootstrap_exact"
   ],
   "note": "over the reals"
  },
  {
   "property": "C51",
   "status": "partial",
   "theorems": [
    "C51_silverman_refuted",
    "C51_silverman_partial"
   ],
   "note": "REFUTED: the standard deviation is not used; the formula with the interquartile range is proved"
  },
  {
   "property": "C52",
   "status": "partial",
   "theorems": [
    "C52_dispatch_refuted",
    "C52_dispatch_partial"
   ],
   "note": "REFUTED: unknown names return (0, 0); the two names are dispatched correctly, for every arithmetic"
  },
  {
   "property": "C53",
   "status": "proved",
   "theorems": [
    "C53_fault_rates",
    "C53_rates_positive",
    "C53_proportional_to_slip"
   ],
   "note": "over the reals; WC1994 of nhlib is a parameter"
  },
  {
   "property": "C54",
   "status": "partial",
   "theorems": [
    "C54_rates_nonnegative_refuted",
    "C54_rates_nonnegative_partial"
   ],
   "note": "REFUTED: negative rates for b-values above the slope of the moment scaling; non-negative up to it; C81 gives the exact sign"
  },
  {
   "property": "C55",
   "status": "proved",
   "theorems": [
    "C55_construction",
    "C55_rejection",
    "C55_geometry",
    "C55_reverse",
    "C55_additive"
   ],
   "note": "over the reals"
  },
  {
   "property": "C56",
   "status": "proved",
   "theorems": [
    "C56_region_construction",
    "C56_first_values"
   ],
   "note": "over the reals"
  },
  {
   "property": "C57",
   "status": "partial",
   "theorems": [
    "C57_weights_refuted",
    "C57_weights_partial"
   ],
   "note": "REFUTED in binary64: 0.7, 0.2, 0.1 is refused; two weights in thousandths are always accepted (for every libm)"
  },
  {
   "property": "C58",
   "status": "proved",
   "theorems": [
    "C58_region_by_name",
    "C58_default_region",
    "C58_unknown_name"
   ],
   "note": "over the reals; unknown names for every arithmetic"
  },
  {
   "property": "C59",
   "status": "proved",
   "theorems": [
    "C59_round_trip",
    "C59_round_trip_twelve_digits"
   ],
   "note": "every arithmetic; text conversion is a parameter with float(str(x)) = x on the numbers concerned; the second theorem proves this for numbers of at most twelve digits; lists not empty, name and region not the empty text"
  },
  {
   "property": "C60",
   "status": "partial",
   "theorems": [
    "C60_keeps_document_ids_refuted",
    "C60_keeps_document_ids_partial"
   ],
   "note": "REFUTED: all sources get the ids of the first one; the rest holds"
  },
  {
   "property": "C61",
   "status": "partial",
   "theorems": [
    "C61_keeps_numbers_refuted",
    "C61_keeps_numbers_partial",
    "C61_keeps_twelve_digits_partial"
   ],
   "note": "REFUTED in binary64: str() keeps 12 digits; each number read back is float(str(x)); numbers of at most twelve digits come back equal"
  },
  {
   "property": "C62",
   "status": "proved",
   "theorems": [
    "C62_reads_every_source",
    "C62_reads_every_source_any"
   ],
   "note": "every document, every arithmetic"
  },
  {
   "property": "C63",
   "status": "proved",
   "theorems": [
    "C63_preprocessing_pipeline",
    "C63_processing_pipeline",
    "C63_nothing_runs",
    "C63_missing_key"
   ],
   "note": "All configurations, any arithmetic; pipelines are compared as lists of jobs."
  },
  {
   "property": "C64",
   "status": "proved",
   "theorems": [
    "C64_pipeline_runs_in_order",
    "C64_failing_job"
   ],
   "note": "Any job list and context. A failing job itself leaves no effect except for the two named in C64_failing_job."
  },
  {
   "property": "C65",
   "status": "proved",
   "theorems": [
    "C65_processing_per_source"
   ],
   "note": "Runs that complete, with the two processing jobs; the polygon tests and the random draws are parameters."
  },
  {
   "property": "C66",
   "status": "proved",
   "theorems": [
    "C66_other_sources_irrelevant",
    "C66_same_events_same_result",
    "C66_job_order",
    "C66_job_order_run"
   ],
   "note": "For runs that complete: a failing source stops the run (C71), so failure of another source does matter. The draws of the bootstrap depend on the sizes only."
  },
  {
   "property": "C67",
   "status": "proved",
   "theorems": [
    "C67_stored_catalogue"
   ],
   "note": "Flags after one declustering job (gk_first); the selection flag of an entry is 0 exactly if it is unflagged and complete."
  },
  {
   "property": "C68",
   "status": "partial",
   "theorems": [
    "C68_flags_aligned_refuted",
    "C68_flags_aligned_partial",
    "C68_misaligned_again",
    "C68_selection_after_misalignment"
   ],
   "note": "REFUTED as stated: Gardner-Knopoff after another declustering job works on the working catalogue and misaligns the flags. Proved when Gardner-Knopoff is not preceded by a declustering job; the other theorems say what happens otherwise."
  },
  {
   "property": "C69",
   "status": "proved",
   "theorems": [
    "C69_table_round_trip",
    "C69_table_round_trip_float",
    "C69_five_places_stored",
    "C69_five_places_read",
    "C69_empty_table"
   ],
   "note": "Over the reals for all tables; for doubles, exact recovery of values below 10^7 with at most five decimals. An empty table is the exception: it cannot be retrieved."
  },
  {
   "property": "C70",
   "status": "partial",
   "theorems": [
    "C70_two_steps_refuted",
    "C70_two_steps_weichert_refuted",
    "C70_two_steps_mle_partial",
    "C70_two_steps_complete_partial",
    "C70_two_steps_five_places_partial",
    "C70_two_steps_declustered_partial",
    "C70_two_steps_float_partial",
    "C70_locked_tables",
    "C70_restart"
   ],
   "note": "REFUTED as stated: a Stepp analysis without locked bins counts incomplete events in the one-run workflow, and with Weichert's method the incomplete events move the time bins even for locked tables. Proved for declustering-only preprocessing with all processing jobs, for every processing job when all events left are complete, and for maximum likelihood when every counted event is complete, as with tables of increasing periods."
  },
  {
   "property": "C71",
   "status": "partial",
   "theorems": [
    "C71_empty_zone_refuted",
    "C71_empty_zone_partial",
    "C71_empty_zone_stops",
    "C71_empty_zone_stops_loop"
   ],
   "note": "REFUTED: the documented behaviour is not that of the code, which raises IndexError at the first source without events; what the code does instead is proved."
  },
  {
   "property": "C72",
   "status": "proved",
   "theorems": [
    "C72_result_after_success",
    "C72_failure_keeps_result"
   ],
   "note": "Any configuration and failure point, when the result file is not also configured as another output."
  },
  {
   "property": "C73",
   "status": "proved",
   "theorems": [
    "C73_geographic_filter",
    "C73_invalid_polygon"
   ],
   "note": "The polygon validity and containment tests of shapely are parameters."
  },
  {
   "property": "C74",
   "status": "proved",
   "theorems": [
    "C74_default_values",
    "C74_default_values_float",
    "C74_default_values_real",
    "C74_stored_without_completeness"
   ],
   "note": "In any arithmetic whose comparison orders the values; reals and doubles (years always, magnitudes if none is NaN)."
  },
  {
   "property": "C75",
   "status": "proved",
   "theorems": [
    "C75_command_line",
    "C75_command_line_errors",
    "C75_debug_log"
   ],
   "note": "The option parser and the YAML parser are parameters. With -i naming a missing file the help is printed too, and the run then raises IOError."
  },
  {
   "property": "C76",
   "status": "proved",
   "theorems": [
    "C76_haversine_triangle"
   ],
   "note": "over the reals"
  },
  {
   "property": "C77",
   "status": "proved",
   "theorems": [
    "C77_kijko_at_least_observed"
   ],
   "note": "over the reals"
  },
  {
   "property": "C78",
   "status": "proved",
   "theorems": [
    "C78_kijko_uses_largest"
   ],
   "note": "over the reals"
  },
  {
   "property": "C79",
   "status": "proved",
   "theorems": [
    "C79_quantile"
   ],
   "note": "over the reals"
  },
  {
   "property": "C80",
   "status": "proved",
   "theorems": [
    "C80_length_at_least_direct"
   ],
   "note": "over the reals"
  },
  {
   "property": "C81",
   "status": "proved",
   "theorems": [
    "C81_rate_sign"
   ],
   "note": "over the reals"
  },
  {
   "property": "C82",
   "status": "proved",
   "theorems": [
    "C82_integer_cells"
   ],
   "note": ""
  },
  {
   "property": "C83",
   "status": "proved",
   "theorems": [
    "C83_csv_records"
   ],
   "note": ""
  },
  {
   "property": "C84",
   "status": "proved",
   "theorems": [
    "C84_object_of_element"
   ],
   "note": "every element, every arithmetic"
  },
  {
   "property": "C85",
   "status": "proved",
   "theorems": [
    "C85_write_failures"
   ],
   "note": ""
  },
  {
   "property": "C86",
   "status": "proved",
   "theorems": [
    "C86_only_output_files"
   ],
   "note": "Any configuration, any outcome."
  },
  {
   "property": "C87",
   "status": "proved",
   "theorems": [
    "C87_result_file_needs_directory",
    "C87_result_file_in_directory"
   ],
   "note": "os.path.exists('') is False; with a directory part the workflow writes the file exactly when that directory exists."
  },
  {
   "property": "C88",
   "status": "partial",
   "theorems": [
    "C88_normal_cdf_refuted",
    "C88_normal_cdf_partial"
   ],
   "note": "REFUTED as stated: one deviation above the mean the result is more than 0.17 too small, because a_2 has the wrong sign; partial: exact at the mean and within 1/4 everywhere in the range"
  },
  {
   "property": "C89",
   "status": "partial",
   "theorems": [
    "C89_weichert_a_value_refuted",
    "C89_weichert_a_value_partial"
   ],
   "note": "REFUTED for reference magnitude 0, where the code returns the rate above the lowest bin edge with an unrelated error; partial: holds for all other reference magnitudes"
  },
  {
   "property": "C90",
   "status": "partial",
   "theorems": [
    "C90_mle_a_error_refuted",
    "C90_mle_a_error_partial"
   ],
   "note": "REFUTED: lines 216-217 multiply by the reference magnitude where the a-value uses the completeness magnitude; partial: closed form of the error"
  },
  {
   "property": "C91",
   "status": "partial",
   "theorems": [
    "C91_mle_all_events_refuted",
    "C91_mle_all_events_partial"
   ],
   "note": "REFUTED: bins are kept by their centre; partial: holds when the completeness magnitude is a multiple of 0.1"
  },
  {
   "property": "C92",
   "status": "partial",
   "theorems": [
    "C92_mle_rate_refuted",
    "C92_mle_rate_partial"
   ],
   "note": "REFUTED: the span of the complete events is used instead of the completeness period; partial: exact value, never too small, equality condition"
  },
  {
   "property": "C93",
   "status": "proved",
   "theorems": [
    "C93_weichert_is_the_estimate"
   ],
   "note": "over the reals; tolerance times magnitude range at most 0.3"
  },
  {
   "property": "C94",
   "status": "proved",
   "theorems": [
    "C94_matrix_rows"
   ],
   "note": "any arithmetic"
  },
  {
   "property": "C95",
   "status": "partial",
   "theorems": [
    "C95_declustering_twice_refuted",
    "C95_declustering_twice_partial",
    "C95_declustering_twice_one_smallest_partial"
   ],
   "note": "REFUTED in binary64 with numpy's heapsort and the default windows: a second run removes the M7 of the witness.  The loop never visits the event the sort puts last; ties in the smallest magnitude let that be another event in the second run.  Proved: nothing is removed when that event is removed or is the same in both runs, in particular (reals) when one event has the smallest magnitude."
  },
  {
   "property": "C96",
   "status": "partial",
   "theorems": [
    "C96_removed_events_explained_refuted",
    "C96_removed_events_explained_partial"
   ],
   "note": "REFUTED in binary64 with the default windows and foreshock proportion 0: the aftershock of a main shock that is itself removed later is in no kept event's window.  Proved over the reals for foreshock proportion 1 and windows that do not shrink with magnitude (true of Uhrhammer and Gruenthal, C26)."
  },
  {
   "property": "C97",
   "status": "partial",
   "theorems": [
    "C97_far_event_changes_nothing_refuted",
    "C97_far_event_changes_nothing_partial"
   ],
   "note": "REFUTED in binary64 with the default windows and foreshock proportion 0: the loop stops before the smallest event, so adding a smaller far event lets the former smallest act as a main shock and purge an M7.  Proved over the reals when the added event is larger than some other event and magnitudes are distinct, at any position in the catalogue."
  },
  {
   "property": "C98",
   "status": "partial",
   "theorems": [
    "C98_recurrence_ignores_order",
    "C98_kijko_ignores_order_refuted",
    "C98_kijko_ignores_order_partial"
   ],
   "note": "REFUTED for the uncertainty of Kijko's estimate when several events share the largest magnitude with different uncertainties; proved for both recurrence methods, for the estimate itself, and for the uncertainty when the largest events have one uncertainty (over the reals)"
  },
  {
   "property": "C99",
   "status": "proved",
   "theorems": [
    "C99_declustering_frame"
   ],
   "note": "over the reals"
  },
  {
   "property": "C100",
   "status": "proved",
   "theorems": [
    "C100_epoch"
   ],
   "note": "over the reals"
  },
  {
   "property": "C101",
   "status": "partial",
   "theorems": [
    "C101_order_with_ties_refuted"
   ],
   "note": "REFUTED for both methods in binary64 with numpy's heapsort: three events of one magnitude give two main shocks in one order and one in another; the case of distinct magnitudes is C21"
  },
  {
   "property": "C102",
   "status": "partial",
   "theorems": [
    "C102_valid_is_read_refuted",
    "C102_valid_is_read_partial",
    "C102_float_reads_doubles_partial"
   ],
   "note": "REFUTED: valid area sources without a name, with a discretised magnitude distribution, an odd coordinate list, no ring or an empty magnitude list end the reader with an exception; proved: a valid document is read exactly when each area source has what the reader wants beyond the schema, and float() reads every xs:double."
  },
  {
   "property": "C103",
   "status": "partial",
   "theorems": [
    "C103_reading_keeps_all_refuted",
    "C103_reading_keeps_all_partial"
   ],
   "note": "REFUTED: holes of a polygon and rate models after the first are dropped; proved: they never make a difference for a valid area source."
  },
  {
   "property": "C104",
   "status": "partial",
   "theorems": [
    "C104_read_is_written_refuted",
    "C104_read_is_written_partial"
   ],
   "note": "REFUTED: sources read without srsName or magnitude type raise TypeError, and a valid document without area sources IndexError; proved: writable exactly when there are area sources and all have the three attributes."
  },
  {
   "property": "C105",
   "status": "partial",
   "theorems": [
    "C105_written_is_valid_refuted",
    "C105_written_is_valid_partial",
    "C105_printed_doubles_partial"
   ],
   "note": "REFUTED: default_area_source is written with the same id for root, model and source, and an infinite number as inf; proved: the exact condition for validity, and that str(x) is an xs:double exactly for finite x."
  },
  {
   "property": "C106",
   "status": "partial",
   "theorems": [
    "C106_result_is_valid_refuted",
    "C106_default_never_valid_partial",
    "C106_result_is_valid_partial"
   ],
   "note": "REFUTED: without a source model the result is never valid; proved: with a valid source model the result is valid exactly when its numbers, including the computed rates, are printed as the schema allows."
  },
  {
   "property": "C107",
   "status": "proved",
   "theorems": [
    "C107_afteran_time_chain",
    "C107_afteran_time_order"
   ],
   "note": "real arithmetic; argsort sorts"
  },
  {
   "property": "C108",
   "status": "proved",
   "theorems": [
    "C108_only_input_files_matter",
    "C108_only_stored_files_change"
   ],
   "note": "For every Ops and world; the random draws are a function in the model, so both runs get the same ones."
  },
  {
   "property": "C109",
   "status": "proved",
   "theorems": [
    "C109_running_again"
   ],
   "note": "For every Ops and world; corollary of C108."
  },
  {
   "property": "C110",
   "status": "proved",
   "theorems": [
    "C110_counting_events_again"
   ],
   "note": "ROps; for every event list, table, window and both algorithms."
  },
  {
   "property": "C111",
   "status": "partial",
   "theorems": [
    "C111_magnitude_scale_weichert",
    "C111_magnitude_scale_mle_partial",
    "C111_magnitude_scale_error_refuted"
   ],
   "note": "REFUTED for the maximum likelihood error of the rate, which is a power of ten of an expression containing the reference magnitude; proved for all four Weichert numbers and for b, its error and the rate of maximum likelihood."
  },
  {
   "property": "C112",
   "status": "partial",
   "theorems": [
    "C112_own_area_budget_refuted",
    "C112_length_unused",
    "C112_moment_budget_partial"
   ],
   "note": "REFUTED for the area of the fault: with a given maximum magnitude the length is not used and large maximum magnitudes release more than the fault accumulates; proved with the length of the largest rupture in place of the fault length: exact sum and upper bounds."
  },
  {
   "property": "C113",
   "status": "partial",
   "theorems": [
    "C113_result_as_source_model_refuted",
    "C113_result_as_source_model_partial",
    "C113_result_as_source_model_cpython_partial"
   ],
   "note": "REFUTED for boundaries with more than twelve digits; proved for every arithmetic when coordinates read back and result numbers print the same again, and for CPython's numbers when coordinates have at most twelve digits and the printed numbers an ordinary size. Missing: sizes outside 1e-280..1e300 and processing lists with other jobs."
  },
  {
   "property": "C114",
   "status": "partial",
   "theorems": [
    "C114_outside_events_refuted",
    "C114_outside_events_partial"
   ],
   "note": "REFUTED without a completeness table (default table from the whole catalogue); proved with a table or when oldest year and smallest magnitude are unchanged, for every arithmetic"
  },
  {
   "property": "C115",
   "status": "proved",
   "theorems": [
    "C115_unused_columns"
   ],
   "note": "every arithmetic and every job list"
  },
  {
   "property": "C116",
   "status": "partial",
   "theorems": [
    "C116_row_order_refuted",
    "C116_selection_partial",
    "C116_weichert_counts_partial",
    "C116_maxlike_partial"
   ],
   "note": "REFUTED for Weichert's method (swapping two rows moves b from 0.764 to 0.569 in binary64: the observation time is that of the last row not above the bin); proved: the selection depends on the set of rows only (every arithmetic), Weichert's bins and counts do not depend on the order (every arithmetic), maximum likelihood does not when the rows of a year are adjacent in both tables (reals)."
  },
  {
   "property": "C117",
   "status": "proved",
   "theorems": [
    "C117_magnitude_scale"
   ],
   "note": "Over the reals; the cumulative moment method is C49_shift."
  },
  {
   "property": "C118",
   "status": "partial",
   "theorems": [
    "C118_wider_window_refuted",
    "C118_gk_wider_partial",
    "C118_afteran_wider_partial"
   ],
   "note": "REFUTED for both algorithms in binary64 with the sort numpy uses: an M5 taken into the cluster of an M7 by the wider window no longer removes the M4 and the M3.9 near it, so three main shocks are left where the narrower window leaves two. What holds, over the reals and for every sort: when the wider window removes nothing, the narrower gives the same result."
  },
  {
   "property": "C119",
   "status": "partial",
   "theorems": [
    "C119_cumulative_below_observed_refuted",
    "C119_cumulative_bounds_partial"
   ],
   "note": "REFUTED in binary64: events of 7, 6.9 and 7 in three years give an estimate below 6.6, one M7 in each of two years gives minus infinity. What holds, over the reals, unless the release is uniform: the moment of the estimate is at least that of every event less the mean yearly moment, and at most that of all events together."
  },
  {
   "property": "C120",
   "status": "proved",
   "theorems": [
    "C120_counting_events_again",
    "C120_reversed_time"
   ],
   "note": "Over the reals; part one needs a release that is not perfectly uniform (otherwise the logarithm of 0 is taken)."
  },
  {
   "property": "C121",
   "status": "proved",
   "theorems": [
    "C121_stepp_repeated_events"
   ],
   "note": "Over the reals, with sensitivity at most 3 and events x years at most 10^12 (larger products let the 1e-14 floor of the deviations be reached)."
  },
  {
   "property": "C122",
   "status": "partial",
   "theorems": [
    "C122_tenths_own_bin_refuted",
    "C122_tenths_own_bin_partial"
   ],
   "note": "REFUTED as stated: magnitudes 3.0 and 3.3 leave the bin of 3.3 empty in binary64. Proved instead, for every catalogue in tenths from 0.0 to 10.0: no event lost, each in its own bin or the one below, exact rows when the smallest magnitude is at least 4.0."
  },
  {
   "property": "C123",
   "status": "partial",
   "theorems": [
    "C123_weichert_covered_events_refuted",
    "C123_weichert_covered_events_partial",
    "C123_weichert_covered_events_half_partial"
   ],
   "note": "REFUTED as stated: an early event exactly at the completeness magnitude 4.3 is dropped in binary64. Proved instead: the counts lie between those of the strictly covered and of the covered events, bin by bin and in total; exact counts when the completeness magnitudes are half-way between tenths."
  },
  {
   "property": "C124",
   "status": "proved",
   "theorems": [
    "C124_double_decimal_year_in_year",
    "C124_double_decimal_year_order"
   ],
   "note": "Binary64 counterpart of C27, through Flocq's correctness of sum, difference, product and quotient."
  },
  {
   "property": "C125",
   "status": "proved",
   "theorems": [
    "C125_region_equality",
    "C125_equal_regions_same_rates"
   ],
   "note": "Binary64, any mathematical library; contents of keys other than model/value/weight are not modelled."
  },
  {
   "property": "C126",
   "status": "proved",
   "theorems": [
    "C126_bootstrap_statistics"
   ],
   "note": "over the reals; the draws are a parameter"
  },
  {
   "property": "C127",
   "status": "proved",
   "theorems": [
    "C127_catalogue_b_value"
   ],
   "note": "over the reals; composes C39, C43 and C93"
  },
  {
   "property": "C128",
   "status": "partial",
   "theorems": [
    "C128_incomplete_events_refuted",
    "C128_incomplete_events_partial"
   ],
   "note": "REFUTED as stated (the earliest event sets the time bins). Proved over the reals for magnitudes in tenths when the first and last year and the smallest and largest magnitude stay."
  },
  {
   "property": "C129",
   "status": "partial",
   "theorems": [
    "C129_incomplete_not_counted_refuted",
    "C129_incomplete_not_counted_partial"
   ],
   "note": "REFUTED as stated (magnitudes are rounded to tenths first). Proved over the reals for magnitudes in tenths."
  },
  {
   "property": "C130",
   "status": "proved",
   "theorems": [
    "C130_understood",
    "C130_only_these"
   ],
   "note": "C130_understood for values that do not start with a dash in an argument of their own; C130_only_these gives the converse with the values argparse takes for one (negative numbers, blanks, a single dash). The two classes differ only in values that start with a dash."
  },
  {
   "property": "C131",
   "status": "partial",
   "theorems": [
    "C131_group_refuted",
    "C131_group_partial"
   ],
   "note": "REFUTED for a text that starts with an equals sign: -d -i=f reads f and -di=f reads =f. Proved for every other text."
  },
  {
   "property": "C132",
   "status": "proved",
   "theorems": [
    "C132_stepp_counts_once_float"
   ],
   "note": "Binary64 version of C32, for every end time and duration."
  },
  {
   "property": "C133",
   "status": "proved",
   "theorems": [
    "C133_gk_table"
   ],
   "note": "Over the reals."
  },
  {
   "property": "C134",
   "status": "partial",
   "theorems": [
    "C134_uhrhammer_law_refuted",
    "C134_uhrhammer_three_weeks_partial",
    "C134_uhrhammer_keeps_partial"
   ],
   "note": "REFUTED: declustering.py:145 divides the magnitude term by 365 inside exp, so at magnitude 9 the law gives more than forty times the window used. Proved instead: the window is between 19 and 24 days for every magnitude from 0 to 9 (too long up to 4, too short from 6), and with it Gardner-Knopoff keeps every event of a catalogue without two events within 24 days."
  },
  {
   "property": "C135",
   "status": "partial",
   "theorems": [
    "C135_schema_regions_refuted",
    "C135_schema_regions_partial"
   ],
   "note": "REFUTED: 'Subduction IntraSlab' and 'Stable Shallow Crust' are valid NRML but the builder knows 'Subction Intraslab' and 'Stable Continental'; the partial theorem says which names are known."
  },
  {
   "property": "C136",
   "status": "proved",
   "theorems": [
    "C136_read_entries_stored"
   ],
   "note": "For every Ops and every world whose dictionary order is a rearrangement."
  },
  {
   "property": "C137",
   "status": "proved",
   "theorems": [
    "C137_larger_mean_smaller_b",
    "C137_sign_of_b"
   ],
   "note": "Over the reals; with a lower bound for the difference."
  },
  {
   "property": "C138",
   "status": "partial",
   "theorems": [
    "C138_range_refuted",
    "C138_range_partial"
   ],
   "note": "REFUTED in binary64: events of 7, 6.9 and 7 in three years with reference magnitude 6.8 give minMagnitude 6.8 and maxMagnitude below it (cumulative moment). Proved for Kijko's method over the reals when the magnitudes span at most five bandwidths."
  },
  {
   "property": "C139",
   "status": "proved",
   "theorems": [
    "C139_result",
    "C139_determined",
    "C139_runs"
   ],
   "note": "every arithmetic and world; no axioms; the converse (C139_runs) is for runs that do not store the preprocessed catalogue"
  },
  {
   "property": "C140",
   "status": "partial",
   "theorems": [
    "C140_window",
    "C140_gk_partial",
    "C140_afteran_refuted"
   ],
   "note": "REFUTED for AFTERAN (C140_afteran_refuted: binary64, numpy's heapsort, an M5 listed twice after an older M7 at the same place: all three rows kept, because row 0 of the distance selection is taken to be the event itself). Proved for Gardner-Knopoff: for every arithmetic when each row is in the other's window (C140_window), and over the reals from equal date and place (C140_gk_partial). Case: C140_case."
  },
  {
   "property": "C141",
   "status": "partial",
   "theorems": [
    "C141_unlisted",
    "C141_preprocessed_input_refuted"
   ],
   "note": "REFUTED as documented: with blank preprocessing_jobs a completed run ignores the preprocessed catalogue named in pprocessing_result_file. Proved for every arithmetic, world and configuration: entries of unlisted jobs, and that entry, have no effect at all. Case: C141_case."
  },
  {
   "property": "C142",
   "status": "partial",
   "theorems": [
    "C142_unique_identifiers_refuted"
   ],
   "note": "REFUTED: two rows with identifier 7. The identifiers play no part in the results (C115)."
  },
  {
   "property": "C143",
   "status": "proved",
   "theorems": [
    "C143_job_set"
   ],
   "note": "for every arithmetic and world; C143_case: two jobs in the other order, one of them twice"
  },
  {
   "property": "C144",
   "status": "partial",
   "theorems": [
    "C144_declustering_accumulates_refuted",
    "C144_afteran_starts_over"
   ],
   "note": "REFUTED by a run of the demonstration world; C144_afteran_starts_over says what happens instead, for every arithmetic and world"
  },
  {
   "property": "C145",
   "status": "proved",
   "theorems": [
    "C145_storing_changes_nothing"
   ],
   "note": "for every arithmetic and world; C145_case: a run that stores both files and one that stores none"
  },
  {
   "property": "C146",
   "status": "proved",
   "theorems": [
    "C146_catalogue_rate",
    "C146_rate_bounds",
    "C146_one_period"
   ],
   "note": "real arithmetic; C146_case: seven events for which the method returns, at least six of them counted. Reference magnitude 0 is C89."
  },
  {
   "property": "C147",
   "status": "proved",
   "theorems": [
    "C147_sign",
    "C147_sign_one_period",
    "C147_larger_mean_smaller_b"
   ],
   "note": "exact real arithmetic; the bins are those of C146"
  },
  {
   "property": "C148",
   "status": "proved",
   "theorems": [
    "C148_bad_input",
    "C148_nothing_written",
    "C148_bad_table"
   ],
   "note": "every Ops and every world"
  },
  {
   "property": "C149",
   "status": "proved",
   "theorems": [
    "C149_default_source",
    "C149_no_processing"
   ],
   "note": "every Ops and every world; the writer that turns the source into the file is that of C59 and C84"
  },
  {
   "property": "C150",
   "status": "partial",
   "theorems": [
    "C150_equal_written_same_refuted",
    "C150_equal_written_same_partial",
    "C150_equality",
    "C150_differs"
   ],
   "note": "REFUTED in binary64: a rate of -0.0 equals one of 0.0 and is written differently. Proved for all sources without -0.0; the laws of == and != proved"
  },
  {
   "property": "C151",
   "status": "proved",
   "theorems": [
    "C151_completes_iff"
   ],
   "note": "every Ops and every world; rows of the table as modelled (comments not modelled)"
  },
  {
   "property": "C152",
   "status": "proved",
   "theorems": [
    "C152_document",
    "C152_written",
    "C152_result_document"
   ],
   "note": "every Ops and every world"
  },
  {
   "property": "C153",
   "status": "proved",
   "theorems": [
    "C153_stored_lines"
   ],
   "note": "over the reals; a negative value that rounds to zero is printed as 0.00000 in the model and as -0.00000 by Python, the statement allows both"
  },
  {
   "property": "C154",
   "status": "proved",
   "theorems": [
    "C154_text",
    "C154_exact",
    "C154_run"
   ],
   "note": "Independent description of the whole file (heading, order of values, digits, quoting, line ends), which holds of the text written and of no other (C154_exact); C154_run gives it for the file of a preprocessing run under the conditions of C67."
  },
  {
   "property": "C155",
   "status": "proved",
   "theorems": [
    "C155_equal",
    "C155_same_run",
    "C155_queue",
    "C155_same_lists_refuted"
   ],
   "note": "Proved for every arithmetic and world. C155_same_lists_refuted: the lists of jobs themselves may differ, as storing can be asked for by name or by result file."
  }
 ]
}
