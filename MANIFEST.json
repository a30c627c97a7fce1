{
 "claims": [
  {
   "property": "C01",
   "status": "proved",
   "theorems": [
    "C01_date_check",
    "C01_cold_detect_unsorted"
   ],
   "note": "an unsorted series is refused before anything else; a sorted one is processed"
  },
  {
   "property": "C02",
   "status": "proved",
   "theorems": [
    "C02_selection"
   ],
   "note": ""
  },
  {
   "property": "C03",
   "status": "proved",
   "theorems": [
    "C03_qa_accounting"
   ],
   "note": ""
  },
  {
   "property": "C04",
   "status": "proved",
   "theorems": [
    "C04_cold_terminates",
    "C04_cold_detect_terminates"
   ],
   "note": "fuel zlen x - conse - 11 always suffices; also end to end for cold_detect"
  },
  {
   "property": "C05",
   "status": "proved",
   "theorems": [
    "C05_cold_memory_safe",
    "C05_cold_detect_memory_safe",
    "C05_long_series_refuted",
    "C05_nan_angle_refuted"
   ],
   "note": "safe below 39*367 days span; witnesses for >=40 records and for NaN angle with CM output; also end to end"
  },
  {
   "property": "C06",
   "status": "proved",
   "theorems": [
    "C06_records_ordered",
    "C06_cold_detect"
   ],
   "note": ""
  },
  {
   "property": "C07",
   "status": "proved",
   "theorems": [
    "C07_probability",
    "C07_cold_detect"
   ],
   "note": "all probabilities below 100 described, including the undefined-angle corner"
  },
  {
   "property": "C08",
   "status": "proved",
   "theorems": [
    "C08_break_rule"
   ],
   "note": ""
  },
  {
   "property": "C09",
   "status": "proved",
   "theorems": [
    "C09_category",
    "C09_all_categories"
   ],
   "note": ""
  },
  {
   "property": "C10",
   "status": "proved",
   "theorems": [
    "C10_year_and_twelve",
    "C10_record_count"
   ],
   "note": ""
  },
  {
   "property": "C100",
   "status": "partial",
   "theorems": [
    "C100_listing",
    "C100_results",
    "C100_one_submission",
    "C100_resubmit_refuted",
    "C100_stale_refuted"
   ],
   "note": "Proved for one submission into a directory without earlier results, and after any history whose last writes per snapshot are those of a complete call. Refuted after a resubmission (markers of the first submission release the other ranks while files are rewritten) and for results of an earlier run with other snapshots, which are read as additional breaks."
  },
  {
   "property": "C101",
   "status": "proved",
   "theorems": [
    "C101_step",
    "C101_detect",
    "C101_update"
   ],
   "note": "For any numerical routines, with threshold and gate at most the cap of the running minimum (MAX_MAG in the code). A NaN mean angle counts as a change while monitoring but not in the look-back."
  },
  {
   "property": "C102",
   "status": "partial",
   "theorems": [
    "C102_pinpoint_neutral",
    "C102_gate_refuted"
   ],
   "note": "Proved when the gate is not above the change threshold. Refuted for a gate above the threshold (the caller chooses both): the window scan then stops before the change is seen, and the break is missed when the option is on."
  },
  {
   "property": "C103",
   "status": "proved",
   "theorems": [
    "C103_detect",
    "C103_best"
   ],
   "note": "For any numerical routines; magnitudes are numbers or NaN (a NaN does not lower the minimum). The year is the bucket (date - 1982-01-01)/365.25 of the code."
  },
  {
   "property": "C104",
   "status": "proved",
   "theorems": [
    "C104_magnitudes",
    "C104_decision",
    "C104_raises",
    "C104_window_refuted",
    "C104_short_window_refuted"
   ],
   "note": "Window six: C104_decision characterises the whole decision. C104_magnitudes also says which observations windows seven and eight use (ending one or two too early). Refuted for other windows: C104_window_refuted (window eight calls a disturbance greening), C104_short_window_refuted (window five mixes an empty slot into the median), C104_raises (runs longer than six raise ValueError)."
  },
  {
   "property": "C105",
   "status": "proved",
   "theorems": [
    "C105_detect",
    "C105_update",
    "C105_records",
    "C105_count"
   ],
   "note": "The rules (alive, idle) are stated over plain lists of observations, without indices, buffers or loops. For an update the claim is about the observations of the call: those carried over in the pack followed by the new ones. Numerical routines are arbitrary functions."
  },
  {
   "property": "C106",
   "status": "partial",
   "theorems": [
    "C106_names",
    "C106_blank",
    "C106_documented_refuted",
    "C106_feature",
    "C106_unique",
    "C106_block",
    "C106_export_partial",
    "C106_missing",
    "C106_missing_refuted",
    "C106_blocks_not_square",
    "C106_grid_not_square",
    "C106_nonsquare_refuted",
    "C106_ranks",
    "C106_classifier",
    "C106_days",
    "C106_values"
   ],
   "note": "Proved for square grids of square blocks when every block has a record file. False otherwise: a block without a record file stops all coefficient maps; the raster is created with its sides exchanged, so blocks that are not square raise and grids that are not square give an image of the wrong shape without any message; the option as documented (with blanks) is rejected."
  },
  {
   "property": "C107",
   "status": "proved",
   "theorems": [
    "C107_same",
    "C107_rounded",
    "C107_short",
    "C107_length",
    "C107_forecast"
   ],
   "note": "PyUtils.v; exact arithmetic. The frequencies 2 pi / 365.25 are the same symbol on both sides."
  },
  {
   "property": "C108",
   "status": "partial",
   "theorems": [
    "C108_injective",
    "C108_decode",
    "C108_int32",
    "C108_square_partial",
    "C108_not_square",
    "C108_refuted"
   ],
   "note": "PyUtils.v; proved for square images: the raster is created with its sides exchanged (utils.py 527), so WriteArray raises for every other shape (C108_not_square, C108_refuted); with more than 10000 columns numbers repeat."
  },
  {
   "property": "C109",
   "status": "proved",
   "theorems": [
    "C109_transition",
    "C109_observation",
    "C109_noise",
    "C109_daily",
    "C109_filter"
   ],
   "note": "KfDaily.v; exact arithmetic, six states, observation noise above KFAS_TOL (below it the code skips updates, Kalman.v). steady is FALSE in every call."
  },
  {
   "property": "C11",
   "status": "partial",
   "theorems": [
    "C11_num_obs_partial",
    "C11_num_obs_refuted"
   ],
   "note": "true except for category 14 records, where num_obs is one too large"
  },
  {
   "property": "C110",
   "status": "partial",
   "theorems": [
    "C110_any_shape",
    "C110_same_shape",
    "C110_inside",
    "C110_width_refuted",
    "C110_zeros",
    "C110_stacked",
    "C110_breaks",
    "C110_itemsize_refuted"
   ],
   "note": "Proved at the level of bytes for images of the configured size: Landsat, HLS (whose 64-bit zero array is read with 16-bit strides, harmlessly) and the break maps. In general false: the strides use n_cols of the configuration, so an image of any other width is cut wrongly (C110_width_refuted, for every other width) and a smaller one is read outside its buffer (C110_inside, an equivalence); the strides fit the zero array only because it is zero (C110_itemsize_refuted)."
  },
  {
   "property": "C111",
   "status": "partial",
   "theorems": [
    "C111_explode",
    "C111_bbox",
    "C111_raises",
    "C111_heights_refuted",
    "C111_window"
   ],
   "note": "Proved for positions of which at least one has exactly two coordinates and none fewer; raises in every other case (C111_raises), in particular for geometries whose positions all carry a height, although their box is well defined (C111_heights_refuted)."
  },
  {
   "property": "C112",
   "status": "partial",
   "theorems": [
    "C112_landsat",
    "C112_hls",
    "C112_hls_slices_refuted",
    "C112_range",
    "C112_slots",
    "C112_rerun_refuted",
    "C112_empty_refuted"
   ],
   "note": "Proved for every Landsat name and for HLS names with three-, three- and six-character fields, and for a fresh output directory. False for other HLS field widths (C112_hls_slices_refuted) and when the output directory holds images of an earlier run with a wider range (C112_rerun_refuted: a negative index); a range without scenes yields a number of maps that is not positive (C112_empty_refuted)."
  },
  {
   "property": "C113",
   "status": "proved",
   "theorems": [
    "C113_forecast",
    "C113_statistic",
    "C113_monitor",
    "C113_unique",
    "C113_sum",
    "C113_rmse",
    "C113_end"
   ],
   "note": "Exact arithmetic, observation noise above the tolerance of the filter, pinpoint gate at most tcg. sum_square_vt is cut to a whole number after every observation as in the code, without the limit of unsigned int (C95)."
  },
  {
   "property": "C114",
   "status": "proved",
   "theorems": [
    "C114_distance",
    "C114_nearest",
    "C114_within",
    "C114_all",
    "C114_deviation"
   ],
   "note": "Exact arithmetic for the sums and roots; the quotient of the rounding is arbitrary within 1/2922 year. 3 * category <= number of fitted observations is a hypothesis; C05_cold_memory_safe shows that monitoring keeps it (the model gives UB otherwise)."
  },
  {
   "property": "C115",
   "status": "proved",
   "theorems": [
    "C115_stability",
    "C115_deviation",
    "C115_verdict",
    "C115_look_back",
    "C115_unique"
   ],
   "note": "StartTest.v. Exact arithmetic; the regression is arbitrary (C91). The output of change magnitudes during COLD's look-back is C12."
  },
  {
   "property": "C116",
   "status": "proved",
   "theorems": [
    "C116_pass"
   ],
   "note": "The numerical kernel is arbitrary but a function of its arguments. conse >= 1 and tcg < 9999 as in C07; fuel by C04. Concrete runs beside it: a break, a masked and a removed observation, an initial segment."
  },
  {
   "property": "C117",
   "status": "proved",
   "theorems": [
    "C117_extend"
   ],
   "note": "For one kernel: at the level of the interface the minimum rmse (variogram) is computed from the whole series, so an extension may change it. Through C116."
  },
  {
   "property": "C118",
   "status": "proved",
   "theorems": [
    "C118_forgets"
   ],
   "note": "For one kernel (same minimum rmse). An initial segment is excluded: its record does not reset the observations before the first model. Through C116."
  },
  {
   "property": "C119",
   "status": "proved",
   "theorems": [
    "C119_moved"
   ],
   "note": "Hypotheses on the kernels are shown to hold for a concrete kernel, dates four years later and values raised by 7 (toy_moves). With change magnitudes it does not hold as stated: their dates are stored as 16-bit offsets from day 723742. Through C116."
  },
  {
   "property": "C12",
   "status": "proved",
   "theorems": [
    "C12_cm_maximum",
    "C12_every_window"
   ],
   "note": "C12_every_window: every window tested with p_conse observations enters the change magnitudes."
  },
  {
   "property": "C120",
   "status": "proved",
   "theorems": [
    "C120_segments",
    "C120_records"
   ],
   "note": "Equality of the whole outcome for the loop (C120_segments); for the wrapper the records of every successful call with 24 or more clear rows (C120_records). Kernel (mask, fits, outlier test, deviations) arbitrary."
  },
  {
   "property": "C121",
   "status": "proved",
   "theorems": [
    "C121_order",
    "C121_superfluous",
    "C121_again",
    "C121_again_refuted"
   ],
   "note": "C121_again_refuted is the witness that the 366-day condition of C121_again is needed (breaks 1110 and 1476, observations every 30 days)."
  },
  {
   "property": "C122",
   "status": "proved",
   "theorems": [
    "C122_moved",
    "C122_dates",
    "C122_dates_refuted"
   ],
   "note": "C122_dates_refuted: dates 1100 and 1500 moved back by 1000 days, the witness that the condition of C122_dates is needed."
  },
  {
   "property": "C123",
   "status": "proved",
   "theorems": [
    "C123_disjoint",
    "C123_short_series",
    "C123_complete"
   ],
   "note": "The bound 246 is the last one (Example full_run: 246 observations, 40 dates, the 41st record is written behind the array)."
  },
  {
   "property": "C124",
   "status": "proved",
   "theorems": [
    "C124_accepted",
    "C124_subset",
    "C124_same_breaks"
   ],
   "note": "For the segment loop before the last record loses its break; the values of the two series may differ (the thermal band does), the dates are the same (C74)."
  },
  {
   "property": "C125",
   "status": "proved",
   "theorems": [
    "C125_subset",
    "C125_breaks",
    "C125_all",
    "C125_small_conse_refuted"
   ],
   "note": "ColdObCall.v. Entry points cold and obcold_reconstruct on the same rows. C125_all needs conse >= 6; C125_small_conse_refuted is the witness that a smaller conse loses the last break."
  },
  {
   "property": "C126",
   "status": "proved",
   "theorems": [
    "C126_forget"
   ],
   "note": "ObForget.v, from C120. The break may come from different supplied dates in the two calls."
  },
  {
   "property": "C13",
   "status": "partial",
   "theorems": [
    "C13_default_covers",
    "C13_tile_covers",
    "C05_cold_detect_memory_safe",
    "C13_user_n_refuted",
    "C13_user_start_refuted",
    "C13_user_interval_refuted"
   ],
   "note": "default and tile-level values proved safe; the clause about user-supplied values is refuted by three witnesses"
  },
  {
   "property": "C14",
   "status": "partial",
   "theorems": [
    "C14_cm_dates",
    "C14_cm_dates_refuted"
   ],
   "note": "dates decode when within a short of 723742; refuted beyond"
  },
  {
   "property": "C15",
   "status": "proved",
   "theorems": [
    "C15_observations_unaltered",
    "C15_result"
   ],
   "note": ""
  },
  {
   "property": "C16",
   "status": "proved",
   "theorems": [
    "C16_procedure"
   ],
   "note": ""
  },
  {
   "property": "C17",
   "status": "partial",
   "theorems": [
    "C17_own_dates_partial",
    "C17_green_refuted",
    "C17_thermal_refuted",
    "C17_snow_refuted"
   ],
   "note": "true for the bands listed in the partial theorem; refuted for green, thermal and snow after saturation"
  },
  {
   "property": "C18",
   "status": "partial",
   "theorems": [
    "C18_accepted",
    "C18_breaks_used",
    "C18_first_clear_refuted"
   ],
   "note": "Ordering, one-year spacing, greedy choice and the use of the nearest observation are proved; the clause about the first clear observation is refuted, because the spacing starts from day 0."
  },
  {
   "property": "C19",
   "status": "partial",
   "theorems": [
    "C19_terminates",
    "C19_memory_safe",
    "C19_records",
    "C19_capacity_refuted",
    "C19_empty_refuted"
   ],
   "note": "Order, probabilities and last break proved for every call that returns; capacity proved when the rows span less than 39*366 days and refuted in general; memory safety refuted when all QA-clear rows are out of range."
  },
  {
   "property": "C20",
   "status": "partial",
   "theorems": [
    "C20_refuted",
    "C20_segments_partial"
   ],
   "note": "Refuted: the fallback branch reads sn_pct uninitialised. Records made by the segment loop do not depend on it."
  },
  {
   "property": "C21",
   "status": "partial",
   "theorems": [
    "C21_detect_terminates",
    "C21_update_terminates",
    "C21_failure_refuted"
   ],
   "note": "Termination for every series, state and kernel whose first fit succeeds on enough observations (fits_ok); without that assumption the FAILURE branch of step 1 repeats the same iteration for ever (C21_failure_refuted)."
  },
  {
   "property": "C22",
   "status": "partial",
   "theorems": [
    "C22_detect",
    "C22_online",
    "C22_append_only",
    "C22_default_window_refuted",
    "C22_two_updates_refuted"
   ],
   "note": "Order and chaining hold for sccd_detect with every conse and for every online history with conse 8; append-only for every conse. With the default conse 6 an update reads the two empty window slots as observations of the launch day and records a break before its segment starts (refuted)."
  },
  {
   "property": "C23",
   "status": "proved",
   "theorems": [
    "C23_update",
    "C23_history",
    "C23_detect"
   ],
   "note": "Modes also include 11, which only sccd_identify sets. Closed set, standard and snow never mix, over every history of updates and identifications."
  },
  {
   "property": "C24",
   "status": "proved",
   "theorems": [
    "C24_accepted",
    "C24_window",
    "C24_returned"
   ],
   "note": "C24_window: the window saved in monitor mode is the last eight of the previous window and the new clear rows (conse 8). C24_returned: the wrapper returns the arrays its mode needs."
  },
  {
   "property": "C25",
   "status": "proved",
   "theorems": [
    "C25_standard",
    "C25_snow_queue",
    "C25_snow_model",
    "C25_update",
    "C25_snow_rows"
   ],
   "note": "Standard and snow modes separately; C25_update lifts the standard case through the wrapper."
  },
  {
   "property": "C26",
   "status": "partial",
   "theorems": [
    "C26_two_updates_partial",
    "C26_updates_partial",
    "C26_detect_partial",
    "C26_waiting_partial",
    "C26_first_partial",
    "C26_batches_partial",
    "C26_default_window_refuted",
    "C26_after_break_refuted",
    "C26_noise_refuted",
    "C26_tried_refuted"
   ],
   "note": "False as stated, in four ways with witnesses: with the default window of six an update after a detection is undefined where one detection reports the change; with a window of eight a split right after a break leaves a queue instead of the model one detection builds; the noise level is estimated from the first call only, so records can differ; once a start of the first segment was tried and its outliers removed, the next update tries again from the first observation of the queue and the segment may start elsewhere. Proved for a window of eight and a store that loses nothing: any number of updates of a monitored pixel, which stays in its monitoring mode before the last, is one update with the joined rows (same pack); a detection and one update give the records of one detection when the kernel ignores min_rmse. Proved for every window length: while the pixel still has too few observations to try a start (at most 17 + conse, or within 365 days), any number of batches is one batch (same pack), and a detection followed by such batches and a last one gives the records of one detection, and its pack if no break was found, when the noise levels agree. Snow updates compose too, see C94. Missing: splits of a series between the standard and the snow procedure, and the rounding of the stored covariances."
  },
  {
   "property": "C27",
   "status": "partial",
   "theorems": [
    "C27_queue",
    "C27_overflow_refuted"
   ],
   "note": "Queue is a suffix of the accepted observations, at most 240, newest included while it has at most 240; beyond that the newest are dropped (refuted)."
  },
  {
   "property": "C28",
   "status": "partial",
   "theorems": [
    "C28_detect",
    "C28_update",
    "C28_nan_refuted"
   ],
   "note": "Holds when no magnitude of the window is NaN; a NaN magnitude is counted as an anomaly (refuted)."
  },
  {
   "property": "C29",
   "status": "partial",
   "theorems": [
    "C29_detect",
    "C29_first_record_refuted"
   ],
   "note": "In bounds for conse <= 6; with conse 7 and 8 the first record's magnitudes read index -1 (refuted)."
  },
  {
   "property": "C30",
   "status": "partial",
   "theorems": [
    "C30_procedure_partial",
    "C30_series_end_refuted",
    "C30_early_refuted",
    "C30_forty_years_refuted"
   ],
   "note": "In bounds for the procedure under stated bounds; refuted at the end of a series, before 1982 and beyond 40 years."
  },
  {
   "property": "C31",
   "status": "partial",
   "theorems": [
    "C35_online",
    "C31_long_window_refuted"
   ],
   "note": "In bounds for conse 8; _sccd_update accepts longer windows, where the newest observation is lost (9) or accesses are out of bounds (10, 11)."
  },
  {
   "property": "C32",
   "status": "partial",
   "theorems": [
    "C32_pack_kept",
    "C32_alias_refuted"
   ],
   "note": "Unchanged for every mode but 0; in mode 0 min_rmse is the caller's own array and is overwritten (refuted)."
  },
  {
   "property": "C33",
   "status": "partial",
   "theorems": [
    "C33_two_observations",
    "C33_one_observation_refuted"
   ],
   "note": "Determined when there are two clear observations of different dates; with one it is uninitialised memory (refuted)."
  },
  {
   "property": "C34",
   "status": "partial",
   "theorems": [
    "C34_unsorted_refuted"
   ],
   "note": "False: no date check exists in the S-CCD entry points; an unsorted series is accepted."
  },
  {
   "property": "C35",
   "status": "partial",
   "theorems": [
    "C35_online",
    "C35_many_breaks_refuted"
   ],
   "note": "Never overrun within 14680 days with conse 8 for any online history; an online history over 47 years with 41 changes overruns the 40-entry array (refuted)."
  },
  {
   "property": "C36",
   "status": "partial",
   "theorems": [
    "C36_window_six",
    "C36_no_date",
    "C36_window_refuted"
   ],
   "note": "Holds for conse 6 after sccd_detect; with conse 8 the date is wrong and for other packs identification raises (refuted)."
  },
  {
   "property": "C37",
   "status": "proved",
   "theorems": [
    "C37_quick_sort",
    "C37_quick_sort_float",
    "C37_quick_sort_2d",
    "C37_sort_nan_refuted"
   ],
   "note": "with NaN the result is still a permutation but not sorted (refuted)"
  },
  {
   "property": "C38",
   "status": "proved",
   "theorems": [
    "C38_quick_sort_index",
    "C38_quick_sort_index_duplicates_refuted",
    "C38_placement",
    "C38_second_lambda_refuted"
   ],
   "note": "for distinct indices; refuted for duplicate indices and for a second lambda"
  },
  {
   "property": "C39",
   "status": "proved",
   "theorems": [
    "C39_nearest_date",
    "C39_no_match_refuted"
   ],
   "note": ""
  },
  {
   "property": "C40",
   "status": "proved",
   "theorems": [
    "C40_median_row",
    "C40_median_partial",
    "C40_sort_then_median"
   ],
   "note": ""
  },
  {
   "property": "C41",
   "status": "proved",
   "theorems": [
    "C41_unique",
    "C41_empty_refuted"
   ],
   "note": "empty input reports one row (refuted)"
  },
  {
   "property": "C42",
   "status": "proved",
   "theorems": [
    "C42_rows_disjoint",
    "C42_int_overflow_refuted",
    "C42_aligned"
   ],
   "note": ""
  },
  {
   "property": "C43",
   "status": "partial",
   "theorems": [
    "C43_leap",
    "C43_ordinal_to_year_doy",
    "C43_date_unique",
    "C43_year_doy_to_ordinal_partial",
    "C43_round_trip_partial",
    "C43_year_1973_refuted",
    "C43_month_day"
   ],
   "note": "year_doy -> ordinal is wrong for 1973 (uninitialised), so only years >= 1974"
  },
  {
   "property": "C44",
   "status": "proved",
   "theorems": [
    "C44_layout_sound",
    "C44_fields_apart",
    "C44_dtypes_match",
    "C44_pyx_match"
   ],
   "note": "Offsets, sizes, names, element types and extents of all five record types; the layout function is proved to be the C ABI layout."
  },
  {
   "property": "C45",
   "status": "proved",
   "theorems": [
    "C45_coefficients",
    "C45_state",
    "C45_prediction",
    "C45_next_day",
    "C45_gap"
   ],
   "note": "Exact real arithmetic, six states. C45_gap: any number of days without observation leaves the coefficients unchanged."
  },
  {
   "property": "C46",
   "status": "proved",
   "theorems": [
    "C46_covariance",
    "C46_symmetric",
    "C46_gap"
   ],
   "note": "Exact real arithmetic, every dimension and every sequence of days with and without observation; the upper-triangle storage of the BLAS calls is modelled."
  },
  {
   "property": "C47",
   "status": "partial",
   "theorems": [
    "C47_exact",
    "C47_above_one",
    "C47_equal_deviations",
    "C47_refuted",
    "C47_mean",
    "C47_window"
   ],
   "note": "True in exact arithmetic; false in binary32: the quotient can be 1 + 2^-23, acosf returns NaN and the change is not confirmed. C47_window: growing and right-angled windows of two to eight float deviations."
  },
  {
   "property": "C48",
   "status": "partial",
   "theorems": [
    "C48_check",
    "C48_validate",
    "C48_huge_refuted"
   ],
   "note": "Proved for all values except Python integers outside the int64/uint64 range, for which it is refuted."
  },
  {
   "property": "C49",
   "status": "proved",
   "theorems": [
    "C49_block_id",
    "C49_block_id_inv",
    "C49_pixel",
    "C49_position",
    "C49_position_injective",
    "C49_float_quotient",
    "C49_float_row",
    "C49_float_agrees"
   ],
   "note": "Exact index arithmetic plus a Flocq proof that the double computations of utils.py give the same integers."
  },
  {
   "property": "C50",
   "status": "partial",
   "theorems": [
    "C50_square_partial",
    "C50_wide_unset",
    "C50_tall_fails",
    "C50_refuted",
    "C50_missing_block_refuted"
   ],
   "note": "Proved for square block grids. Refuted otherwise: columns beyond the n_block_y-th stay -9999 when n_block_x > n_block_y, the run raises when n_block_x < n_block_y; a missing file is replaced by the previous block."
  },
  {
   "property": "C51",
   "status": "partial",
   "theorems": [
    "C51_assemble_array",
    "C51_square_partial",
    "C51_nonsquare_refuted"
   ],
   "note": "General formula of assemble_array; correct for square grids, wrong shape for all others."
  },
  {
   "property": "C52",
   "status": "proved",
   "theorems": [
    "C52_break_routing",
    "C52_same_pixel"
   ],
   "note": "Observations, break dates and position id of each reconstruction call belong to the same tile pixel."
  },
  {
   "property": "C53",
   "status": "proved",
   "theorems": [
    "C53_blocks",
    "C53_maps",
    "C53_permutation",
    "C53_float_ceil"
   ],
   "note": "blocks and OBIA snapshots; the double-precision ceiling is proved exact for counts below 2^53 in FloatIndex.v"
  },
  {
   "property": "C54",
   "status": "partial",
   "theorems": [
    "C54_default_blocks",
    "C54_refuted",
    "C54_single_column_refuted"
   ],
   "note": "refuted: the default rank 0 processes ids 0..n-1; id 0 is the position of the last column of row one (recomputed under another id), the last block is never processed"
  },
  {
   "property": "C55",
   "status": "partial",
   "theorems": [
    "C55_sixteen",
    "C55_refuted"
   ],
   "note": "proved for n_cores >= 16 after any history of crashes and resubmissions, with every block marked and reconstructed at the end; refuted for every n_cores < 16 (the date maps are assembled by rank 16 only); the classification stage is not part of this theorem"
  },
  {
   "property": "C56",
   "status": "proved",
   "theorems": [
    "C56_complete",
    "C56_never_recomputed"
   ],
   "note": "for all histories of accesses, crashes of single ranks and resubmissions with another number of ranks; one live process per rank"
  },
  {
   "property": "C57",
   "status": "partial",
   "theorems": [
    "C57_block_files_partial",
    "C57_atomic_partial",
    "C57_refuted",
    "C57_crash_refuted"
   ],
   "note": "refuted for the code (maps become visible before they are complete; a crash leaves a half-written map for good); proved for the block files read by the assembly, and for maps written atomically"
  },
  {
   "property": "C58",
   "status": "proved",
   "theorems": [
    "C58_labels",
    "C58_unique"
   ],
   "note": "Segment.v: object labels of the segmentation step."
  },
  {
   "property": "C59",
   "status": "partial",
   "theorems": [
    "C59_samples_partial",
    "C59_enough",
    "C59_training",
    "C59_zero_label_refuted"
   ],
   "note": "Holds for every class except 8 when label 0 occurs and class 8 does not; there training always fails (refuted)."
  },
  {
   "property": "C60",
   "status": "partial",
   "theorems": [
    "C60_encoding",
    "C60_lossless",
    "C60_maps_partial",
    "C60_no_abort",
    "C60_cold_assembled",
    "C60_last_break_refuted",
    "C60_sccd_refuted"
   ],
   "note": "Encoding/decoding exact and lossless; map entries are those of the last marking record of the pixel and year except the final record of each block. Refuted parts: the final record of a block is dropped even when it is a confirmed break, and S-CCD blocks with records never save their maps."
  },
  {
   "property": "C61",
   "status": "proved",
   "theorems": [
    "C61_segment",
    "C61_coverage",
    "C61_last_day_refuted"
   ],
   "note": "The stated rule holds for every ordered segment list; note the last day of the last segment gets no features."
  },
  {
   "property": "C62",
   "status": "proved",
   "theorems": [
    "C62_monotone",
    "C62_unknown"
   ],
   "note": "Segment.v: object-based threshold."
  },
  {
   "property": "C63",
   "status": "proved",
   "theorems": [
    "C63_round_trip"
   ],
   "note": "For every pack the wrappers return."
  },
  {
   "property": "C64",
   "status": "partial",
   "theorems": [
    "C64_pixels_partial",
    "C64_aligned",
    "C64_runtime_refuted"
   ],
   "note": "holds for exceptions other than RuntimeError; refuted for RuntimeError because the handler itself raises (datetime.now.strftime)"
  },
  {
   "property": "C65",
   "status": "partial",
   "theorems": [
    "C65_variogram",
    "C65_single_refuted"
   ],
   "note": "output depends on uninitialised memory with fewer than two observations"
  },
  {
   "property": "C66",
   "status": "partial",
   "theorems": [
    "C66_num_obs",
    "C66_refuted"
   ],
   "note": "num_obs is always one too large; the category is the prescribed one."
  },
  {
   "property": "C67",
   "status": "partial",
   "theorems": [
    "C67_export_dtypes_refuted",
    "C67_other_dtypes_match"
   ],
   "note": "Refuted for the nrt model type; the other two agree."
  },
  {
   "property": "C68",
   "status": "partial",
   "theorems": [
    "C68_all_checked_refuted",
    "C68_unchecked"
   ],
   "note": "Refuted: cm_output_interval, b_c2 and b_monitor_init are unchecked; all others are checked."
  },
  {
   "property": "C69",
   "status": "proved",
   "theorems": [
    "C69_data"
   ],
   "note": ""
  },
  {
   "property": "C70",
   "status": "partial",
   "theorems": [
    "C70_hls",
    "C70_c1",
    "C70_c2",
    "C70_known",
    "C70_fill_first_refuted"
   ],
   "note": "Priority order proved for all packed values; the documented 'fill first' is refuted for Collection 1 and 2 codes with the fill bit and another flag."
  },
  {
   "property": "C71",
   "status": "partial",
   "theorems": [
    "C71_no_overflow",
    "C71_scale_partial",
    "C71_scale_refuted",
    "C71_swir2_offset",
    "C71_thermal_out_of_range"
   ],
   "note": "First five bands proved; refuted for the second shortwave-infrared and the thermal band, whose formulas are exchanged."
  },
  {
   "property": "C72",
   "status": "partial",
   "theorems": [
    "C72_standard",
    "C72_snow",
    "C72_masked_refuted"
   ],
   "note": "Proved for the standard procedure and the snow branch; refuted for the branch of mostly masked pixels, which fits the cloudy rows too."
  },
  {
   "property": "C73",
   "status": "proved",
   "theorems": [
    "C73_file_names"
   ],
   "note": ""
  },
  {
   "property": "C74",
   "status": "partial",
   "theorems": [
    "C74_partial",
    "C74_refuted",
    "C74_collection2_refuted"
   ],
   "note": "Only without date bounds and with b_c2 false; otherwise refuted, and for Collection 2 rows with an ordinary temperature reconstruction keeps no observation."
  },
  {
   "property": "C75",
   "status": "partial",
   "theorems": [
    "C75_partial",
    "C75_empty_block_refuted",
    "C75_no_success_refuted"
   ],
   "note": "Refuted for empty blocks and blocks without a result."
  },
  {
   "property": "C76",
   "status": "proved",
   "theorems": [
    "C76_scenes"
   ],
   "note": "scene loop of prepare_ard main"
  },
  {
   "property": "C77",
   "status": "proved",
   "theorems": [
    "C77_features_placed"
   ],
   "note": "For every tiling and record file written by the pixel loop."
  },
  {
   "property": "C78",
   "status": "partial",
   "theorems": [
    "C78_exists_partial",
    "C78_year",
    "C78_one_year_refuted"
   ],
   "note": "Holds for series spanning two calendar years or more; refuted within one year."
  },
  {
   "property": "C79",
   "status": "partial",
   "theorems": [
    "C79_neighbour_refuted",
    "C79_types_cold",
    "C79_types_obcold"
   ],
   "note": "False: witness where the type of a break changes with the next pixel's first record."
  },
  {
   "property": "C80",
   "status": "proved",
   "theorems": [
    "C80_recent",
    "C80_first"
   ],
   "note": "Per pixel, for every sequence of yearly values."
  },
  {
   "property": "C81",
   "status": "partial",
   "theorems": [
    "C81_cold_partial",
    "C81_sccd_partial",
    "C81_cold_refuted",
    "C81_short_block_refuted",
    "C81_short_series"
   ],
   "note": "Refuted for COLD/OBCOLD: the RuntimeError handler itself raises."
  },
  {
   "property": "C82",
   "status": "partial",
   "theorems": [
    "C82_stack",
    "C82_empty",
    "C82_out_of_range_refuted",
    "C82_listing"
   ],
   "note": "Exact content and order; refuted for blocks whose images are all out of range (exception)."
  },
  {
   "property": "C83",
   "status": "proved",
   "theorems": [
    "C83_towards",
    "C83_agreeing"
   ],
   "note": "Exact real arithmetic."
  },
  {
   "property": "C84",
   "status": "proved",
   "theorems": [
    "C84_range",
    "C84_decreasing",
    "C84_bounds"
   ],
   "note": "Exact real arithmetic."
  },
  {
   "property": "C85",
   "status": "proved",
   "theorems": [
    "C85_why_removed",
    "C85_noise_removed"
   ],
   "note": "ColdProps2. Both directions over the event log of the run."
  },
  {
   "property": "C86",
   "status": "proved",
   "theorems": [
    "C86_initial_segment_gap"
   ],
   "note": "ColdProps2. The gap limit is the parameter p_gap."
  },
  {
   "property": "C87",
   "status": "proved",
   "theorems": [
    "C87_no_look_ahead",
    "C87_look_back"
   ],
   "note": "ColdProps2. The numerical kernel (fit, deviation) is arbitrary."
  },
  {
   "property": "C88",
   "status": "proved",
   "theorems": [
    "C88_record_is_fit"
   ],
   "note": "ColdProps2. r_win is the ghost list of observations of the record."
  },
  {
   "property": "C89",
   "status": "proved",
   "theorems": [
    "C89_stable_start"
   ],
   "note": "ColdProps3. Needs conse >= 1."
  },
  {
   "property": "C90",
   "status": "proved",
   "theorems": [
    "C90_observations",
    "C90_missed",
    "C90_refit_rule",
    "C90_first_fit",
    "C90_refit_base"
   ],
   "note": "ColdProps3. The permitted number is an arbitrary function p_skip of the number of observations at the first fit or the latest refit beyond 24 (cold.c 4014: (int)(i_span_skip * SKIP_PERCENTAGE)). For category 24 only the inclusion of unflagged observations is stated here."
  },
  {
   "property": "C91",
   "status": "partial",
   "theorems": [
    "C91_fit",
    "C91_more_terms",
    "C91_phase_cold",
    "C91_phase_sccd_annual",
    "C91_phase_sccd_refuted"
   ],
   "note": "Arrays, order and scaling proved in exact arithmetic for every window; phases in binary32/binary64. Refuted for the semi-annual terms of S-CCD: 728678 is fitted at a phase more than 0.0009 rad away from the one it is predicted at. Rounding of the products and sums, and the values of cosf/sinf against (float)cos/(float)sin, are not modelled."
  },
  {
   "property": "C92",
   "status": "partial",
   "theorems": [
    "C92_fits_well_posed",
    "C92_cold_detect",
    "C92_obcold",
    "C92_snow_thermal_refuted"
   ],
   "note": "Proved for the standard procedure, the sparse procedure and the whole entry point with Collection 2 data or without dominant snow (ColdProps4.v), and for OBCOLD, there without the minimum of a year (ObProps2.v). Refuted for the thermal band of the snow branch with Collection 1 data: it is fitted to whatever is left, possibly nothing. S-CCD: see C93."
  },
  {
   "property": "C93",
   "status": "proved",
   "theorems": [
    "C93_detect",
    "C93_update"
   ],
   "note": "Closed under the global context. Magnitudes, angles and filter steps of stored models are included; the divisor is nobs - 6 in step 2 and nobs - scft nobs when the model is saved."
  },
  {
   "property": "C94",
   "status": "partial",
   "theorems": [
    "C94_two_updates",
    "C94_batches",
    "C94_delayed",
    "C94_once_refuted"
   ],
   "note": "Proved: updates compose and each update takes in every observation once, eight observations late. Refuted: the model is created from all observations, while the last eight are also stored as if still to come, so the first updates take them in a second time."
  },
  {
   "property": "C95",
   "status": "partial",
   "theorems": [
    "C95_extended",
    "C95_standard",
    "C95_snow",
    "C95_snow_refuted",
    "C95_sum",
    "C95_sum_refuted",
    "C95_reset",
    "C95_first"
   ],
   "note": "Proved for the standard procedure, for sums below 2^32, and for the covariance when no variance exceeds its initial value. Refuted: in the snow procedure the stage is the whole series, so the last observation has no day to be filtered, is left out and the squared residual before it counts twice; from 2^32 on (120 residuals of 0.6) the sum wraps at initialisation and is undefined while monitoring. Residuals are exact numbers."
  },
  {
   "property": "C96",
   "status": "partial",
   "theorems": [
    "C96_resfac",
    "C96_weights",
    "C96_small",
    "C96_fit",
    "C96_passes",
    "C96_mask",
    "C96_same_columns",
    "C96_year_rounded",
    "C96_year",
    "C96_rank",
    "C96_rank_short",
    "C96_rank_refuted",
    "C96_sparse_refuted",
    "C96_median",
    "C96_sd"
   ],
   "note": "Exact arithmetic; the least-squares solvers are arbitrary, and so are cosine and sine but in C96_rank*. The determination of the coefficients is proved for windows from 366 days on with two more distinct dates than twice the number of years (always so for 12 observations in up to five years); it is refuted for windows of up to 365 days (COLD's last window, OBCOLD windows) and for 12 observations spread over 24 years. C96_small: with six observations nothing is ever discounted below 0.84."
  },
  {
   "property": "C97",
   "status": "proved",
   "theorems": [
    "C97_modeby",
    "C97_mode",
    "C97_change",
    "C97_same",
    "C97_size",
    "C97_background",
    "C97_break"
   ],
   "note": "Smoothing, flood fill and connected components are arbitrary; that a superpixel lies in one patch is a hypothesis of C97_size (both use the eight-neighbourhood). Means in exact arithmetic; the decision is arbitrary in C97_change and is_change_object with any monotone rounding in C97_background."
  },
  {
   "property": "C98",
   "status": "partial",
   "theorems": [
    "C98_listing",
    "C98_map",
    "C98_stale_refuted"
   ],
   "note": "Proved for square grids of blocks (C51 shows that no other grid is assembled correctly) and a directory without temporary files of earlier runs; refuted otherwise: stale block files take part. The feature vector and the forest are arbitrary."
  },
  {
   "property": "C99",
   "status": "partial",
   "theorems": [
    "C99_reads_partial",
    "C99_finishes_partial",
    "C99_forest_refuted",
    "C99_map_refuted",
    "C99_resubmit_refuted",
    "C99_late_refuted"
   ],
   "note": "Proved for one submission when the forest and the maps appear in the directory complete (the five seconds the code waits are not modelled); refuted for the code as it is, and after a resubmission even then."
  }
 ]
}