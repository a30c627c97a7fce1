{"id": "C01", "title": "cold_detect refuses unsorted dates and only those", "statement": "cold_detect succeeds past its input check exactly when the date array is non-decreasing; if any date is later than its successor the call raises and no change record is written.", "quantifier": "every date array of every length", "why_tests_cant": "the offending pair may sit anywhere in an array of any length; a test tries finitely many arrays", "anchors": ["src/cxx/cold.c:cold"]}
{"id": "C02", "title": "observations used by COLD are exactly the first clear in-range observation of each date", "statement": "The series cold_detect analyses is the subsequence of the input made of the entries whose QA is clear/water and whose bands are in the documented physical range, keeping the first entry of each date; dates are strictly increasing, band values are the input values, thermal is converted to 10*T-27320 (0 for missing Collection-2 thermal).", "quantifier": "every non-decreasing date array, every band and QA array", "why_tests_cant": "quantifies over all interleavings of duplicates, masked and out-of-range entries", "anchors": ["src/cxx/cold.c:stand_procedure", "src/cxx/utilities.c:preprocessing"]}
{"id": "C03", "title": "QA accounting is exact and unknown QA codes are rejected", "statement": "For every input the clear, water, shadow, snow and cloud totals equal the number of entries with the corresponding QA codes, entries with fill QA 255 are ignored, and the call raises as soon as some entry carries any other code.", "quantifier": "every QA array, every band values", "why_tests_cant": "an unknown code may appear at any position and with any value", "anchors": ["src/cxx/utilities.c:preprocessing", "src/cxx/cold.c:cold", "src/cxx/s_ccd.c:sccd"]}
{"id": "C04", "title": "cold_detect terminates", "statement": "The COLD procedure returns for every series, whatever the numerical fits, masks, angles and magnitudes turn out to be.", "quantifier": "every series, every parameter, every outcome of every numerical routine (including NaN)", "why_tests_cant": "non-termination on one rare branch pattern cannot be excluded by running examples", "anchors": ["src/cxx/cold.c:stand_procedure"]}
{"id": "C05", "title": "COLD never reads or writes outside its observation arrays", "statement": "During cold_detect every access to the observation arrays, the deviation windows and the record array is within the allocation, for any outcome of the numerical routines, as long as the series spans less than 38 years; longer series can write past the 40-record buffer.", "quantifier": "every series and every outcome of the numerical routines", "why_tests_cant": "out-of-bounds accesses need not crash, and depend on exact interplay of removals and window positions", "anchors": ["src/cxx/cold.c:stand_procedure", "src/python/pycold/_colds_cython.pyx:_cold_detect"]}
{"id": "C06", "title": "COLD records are ordered, disjoint in time and chained", "statement": "Records returned by cold_detect satisfy t_start <= t_end for each record, t_end < t_break whenever t_break is set, and t_break of a record <= t_start of the next one; every date reported is the date of an analysed observation.", "quantifier": "every series and every outcome of the numerical routines", "why_tests_cant": "an ordering violation may need a particular sequence of removals, look-backs and breaks", "anchors": ["src/cxx/cold.c:stand_procedure"]}
{"id": "C07", "title": "break probability is 100 exactly for confirmed breaks", "statement": "Every record but the last has change_prob 100 and a break date; a record with change_prob below 100 is the last one, its probability is the share of trailing anomalous observations and it has a break date iff the probability is positive.", "quantifier": "every series and every outcome of the numerical routines", "why_tests_cant": "must hold on all paths through the two ways of ending the series", "anchors": ["src/cxx/cold.c:stand_procedure"]}
{"id": "C08", "title": "a break is confirmed iff all conse consecutive deviations exceed the threshold in a consistent direction", "statement": "While monitoring, a record is closed with probability 100 at a date exactly when each of the conse deviations starting at this date exceeds t_cg and their mean included angle is below 45 degrees (for t_cg below the internal cap 9999).", "quantifier": "every series, t_cg, conse, every outcome of the numerical routines", "why_tests_cant": "the decision must hold for each monitored position of each series", "anchors": ["src/cxx/cold.c:stand_procedure"]}
{"id": "C09", "title": "the category code describes the model", "statement": "The category of each COLD record is one of 4, 6, 8 (regular), 14 (start), 24 (end), 44 (too many masked), 54 (snow); for regular records the number of harmonic terms is the largest for which at least three observations per coefficient were available at the last fit.", "quantifier": "every series and every outcome of the numerical routines", "why_tests_cant": "all branches and all lengths are involved", "anchors": ["src/cxx/cold.c:stand_procedure", "src/cxx/cold.c:inefficientobs_procedure", "src/cxx/misc.c:update_cft"]}
{"id": "C10", "title": "a regular COLD segment has at least a year and twelve observations of training, which bounds the number of records", "statement": "Each record with category 4, 6 or 8 covers at least 366 days and was trained with at least 12 observations, hence cold_detect produces at most 2 + span/366 records.", "quantifier": "every series and every outcome of the numerical routines", "why_tests_cant": "a bound on the number of records for all inputs is not testable", "anchors": ["src/cxx/cold.c:stand_procedure"]}
{"id": "C11", "title": "num_obs is the number of observations behind the fitted coefficients", "statement": "For every record num_obs is the number of observations used for its final fit.", "quantifier": "every series", "why_tests_cant": "off-by-one depends on record kind; a test would have to know the right count for every series", "anchors": ["src/cxx/cold.c:stand_procedure", "src/cxx/cold.c:obcold_reconstruction_procedure", "src/cxx/s_ccd.c:step1_cold_initialize"]}
{"id": "C12", "title": "change-magnitude output is the per-interval maximum with its own date", "statement": "With b_output_cm, entry k of cm_outputs is the maximum of the change magnitudes computed for monitored dates falling into interval k (clamped to 32767; -9999 if none) and cm_outputs_date[k] is the date at which this maximum was first attained.", "quantifier": "every series, interval, starting date and outcome of the numerical routines", "why_tests_cant": "the maximum ranges over an unbounded number of updates in any order", "anchors": ["src/cxx/cold.c:stand_procedure"]}
{"id": "C13", "title": "change-magnitude writes stay inside the output arrays", "statement": "With the default n_cm and starting_date (or the tile-level ones computed by reading_start_dates_nmaps) every CM write index is inside the output arrays; for user-supplied n_cm/starting_date accepted by the validator this must hold as well.", "quantifier": "every accepted parameter combination and series", "why_tests_cant": "the violating combination is a corner of the parameter space", "anchors": ["src/cxx/cold.c:stand_procedure", "src/python/pycold/_colds_cython.pyx:_cold_detect", "src/python/pycold/colds.py:_parameter_constraints", "src/python/pycold/imagetool/tile_processing.py:reading_start_dates_nmaps"]}
{"id": "C14", "title": "CM dates can be decoded", "statement": "cm_outputs_date + 723742 is the ordinal date of the observation for every date cold_detect accepts.", "quantifier": "every date", "why_tests_cant": "depends on 16-bit wrap-around at one end of the range", "anchors": ["src/cxx/cold.c:stand_procedure", "src/python/pycold/ob_analyst.py:ObjectAnalystHPC.obia_execute"]}
{"id": "C15", "title": "COLD discards but never alters observations", "statement": "At every moment the series under analysis is a subsequence (same dates, same band values, same order) of the initially selected series, and the index positions always refer to live observations.", "quantifier": "every series and every outcome of the numerical routines", "why_tests_cant": "in-place compaction bugs show only for particular removal patterns", "anchors": ["src/cxx/cold.c:stand_procedure"]}
{"id": "C16", "title": "cold_detect picks the procedure by the number of clear observations and signals no result by an exception", "statement": "With fewer than 24 QA-clear observations only records of category 44/54 (or no record, signalled by an exception) can be returned; otherwise only categories 4, 6, 8, 14, 24.", "quantifier": "every input", "why_tests_cant": "all inputs", "anchors": ["src/cxx/cold.c:cold", "src/cxx/cold.c:inefficientobs_procedure", "src/python/pycold/_colds_cython.pyx:_cold_detect"]}
{"id": "C17", "title": "the sparse-observation procedure fits each band against its own acquisition dates", "statement": "When too few clear observations exist, the model of every band is fitted on (date, value) pairs that occur in the input.", "quantifier": "every input taking the sparse path", "why_tests_cant": "needs an input where the misalignment occurs; result looks plausible", "anchors": ["src/cxx/cold.c:inefficientobs_procedure"]}
{"id": "C18", "title": "obcold_reconstruct uses the supplied break dates in order and at least one year apart", "statement": "The breaks used by obcold_reconstruct are a strictly increasing subsequence of the sorted supplied positive dates, consecutive ones (and the first clear observation) being at least 365.25 days apart, chosen greedily from the earliest.", "quantifier": "every break date array in any order with repeats and zeros", "why_tests_cant": "any permutation and multiplicity of break dates", "anchors": ["src/cxx/cold.c:obcold_reconstruction_procedure"]}
{"id": "C19", "title": "obcold_reconstruct records are ordered and within capacity", "statement": "Records of obcold_reconstruct are in time order with t_start <= t_end < t_break <= next t_start, all but the last have probability 100, the last has probability 0 and no break; the record array is never overrun.", "quantifier": "every series, break array and outcome of the numerical routines", "why_tests_cant": "all break layouts", "anchors": ["src/cxx/cold.c:obcold_reconstruction_procedure", "src/python/pycold/_colds_cython.pyx:_obcold_reconstruct"]}
{"id": "C20", "title": "obcold_reconstruct is a function of its inputs", "statement": "The records returned by obcold_reconstruct depend only on the arguments of the call.", "quantifier": "every input", "why_tests_cant": "reads of indeterminate variables usually go unnoticed in tests", "anchors": ["src/cxx/cold.c:obcold_reconstruction_procedure", "src/cxx/cold.c:inefficientobs_procedure"]}
{"id": "C21", "title": "sccd_detect and sccd_update terminate", "statement": "The S-CCD procedure returns for every series, state and outcome of the numerical routines.", "quantifier": "every series, every mode, every outcome of the numerical routines", "why_tests_cant": "non-termination on rare branch patterns", "anchors": ["src/cxx/s_ccd.c:sccd_standard", "src/cxx/s_ccd.c:sccd_snow"]}
{"id": "C22", "title": "S-CCD records are ordered and chained", "statement": "S-CCD records satisfy t_start < t_break, and t_break of a record <= t_start of the next; records present before an update are unchanged by it (append-only).", "quantifier": "every series, update history and outcome of the numerical routines", "why_tests_cant": "all update histories", "anchors": ["src/cxx/s_ccd.c:sccd_standard", "src/cxx/s_ccd.c:step2_KF_ChangeDetection"]}
{"id": "C23", "title": "the near-real-time mode evolves within a closed set", "statement": "Starting from sccd_detect and applying any sequence of sccd_update calls the mode stays in {0,1,3,4,5,12}; snow modes and standard modes never mix; a pack in monitor mode leaves it only through a detected change.", "quantifier": "every update history and outcome of the numerical routines", "why_tests_cant": "all histories", "anchors": ["src/cxx/s_ccd.c:sccd", "src/cxx/s_ccd.c:sccd_standard", "src/cxx/s_ccd.c:sccd_snow"]}
{"id": "C24", "title": "the returned pack carries exactly the state its mode needs", "statement": "For every returned pack: monitor modes carry a model and no queue, queue modes a queue and no model, mode 5 both, mode 0 neither; no returned mode makes the wrapper raise; feeding the pack back is accepted.", "quantifier": "every input and history", "why_tests_cant": "all histories", "anchors": ["src/python/pycold/_colds_cython.pyx:_sccd_detect", "src/python/pycold/_colds_cython.pyx:_sccd_update", "src/cxx/s_ccd.c:sccd_standard"]}
{"id": "C25", "title": "an update without new clear observations changes nothing", "statement": "sccd_update with observations that are all unusable (cloud, out of range, same date as the last one) returns the records, mode, model and queue unchanged.", "quantifier": "every pack and every such observation batch", "why_tests_cant": "all packs", "anchors": ["src/cxx/s_ccd.c:sccd"]}
{"id": "C26", "title": "online updating equals offline processing", "statement": "Feeding observations to S-CCD in any split into batches yields the same records and state as processing them at once.", "quantifier": "every series and every split into batches", "why_tests_cant": "exponentially many splits", "anchors": ["src/cxx/s_ccd.c:sccd", "src/cxx/s_ccd.c:sccd_standard", "src/cxx/s_ccd.c:step3_processing_end"]}
{"id": "C27", "title": "the observation queue keeps the newest observations", "statement": "When a pixel is in queue mode the returned queue holds the most recent observations since the last break, at most 240, including the very last one.", "quantifier": "every series and history", "why_tests_cant": "needs >240 queued observations; loss of one newest observation is silent", "anchors": ["src/cxx/s_ccd.c:step3_processing_end"]}
{"id": "C28", "title": "conse_last counts the trailing anomalies", "statement": "The conse_last field of the returned model is the length of the longest run of most recent observations whose change magnitude exceeds gate_tcg (at most conse), and norm_cm is the smallest of these magnitudes times 100, clamped, or -9999 if there are none.", "quantifier": "every window of magnitudes", "why_tests_cant": "all patterns of the window", "anchors": ["src/cxx/s_ccd.c:step3_processing_end"]}
{"id": "C29", "title": "S-CCD initialisation stays inside the observation arrays", "statement": "Every array access of the S-CCD initialisation (look-back test, first-record magnitudes) is in bounds for every accepted conse.", "quantifier": "every series, conse in 1..8, every outcome of the numerical routines", "why_tests_cant": "a negative index reads adjacent heap memory silently", "anchors": ["src/cxx/s_ccd.c:step1_cold_initialize"]}
{"id": "C30", "title": "pinpoint output stays inside the arrays", "statement": "With b_pinpoint every access to observation arrays and per-year buckets is in bounds for every accepted conse and date.", "quantifier": "every series, conse in 1..8, any date range", "why_tests_cant": "silent out-of-bounds reads near the series end", "anchors": ["src/cxx/s_ccd.c:step2_KF_ChangeDetection"]}
{"id": "C31", "title": "sccd_update accepts only window lengths it can handle", "statement": "Every conse accepted by sccd_update leads to in-bounds accesses of the model's 8-entry observation window.", "quantifier": "conse in 1..11, every pack", "why_tests_cant": "validator and C array size disagree only for some values", "anchors": ["src/python/pycold/_colds_cython.pyx:_sccd_update", "src/python/pycold/colds.py:_parameter_constraints", "src/cxx/s_ccd.c:step3_processing_end"]}
{"id": "C32", "title": "sccd_update does not modify its input pack", "statement": "After sccd_update the pack passed in is unchanged in all fields.", "quantifier": "every pack and batch", "why_tests_cant": "aliasing shows only in one mode", "anchors": ["src/python/pycold/_colds_cython.pyx:_sccd_update", "src/cxx/s_ccd.c:sccd"]}
{"id": "C33", "title": "min_rmse returned by sccd_detect is determined by the input", "statement": "All entries of min_rmse are set by the computation for every input.", "quantifier": "every input", "why_tests_cant": "indeterminate stack values look like numbers", "anchors": ["src/cxx/s_ccd.c:sccd", "src/cxx/misc.c:adjust_median_variogram"]}
{"id": "C34", "title": "S-CCD refuses unsorted dates", "statement": "sccd_detect/sccd_update raise when dates are not ascending, as cold_detect does.", "quantifier": "every date array", "why_tests_cant": "all arrays", "anchors": ["src/cxx/s_ccd.c:sccd", "src/python/pycold/_colds_cython.pyx:_sccd_detect"]}
{"id": "C35", "title": "S-CCD never returns or stores more than 40 records", "statement": "The record array of S-CCD is never overrun in any update history.", "quantifier": "every update history", "why_tests_cant": "needs decades of updates", "anchors": ["src/cxx/s_ccd.c:step2_KF_ChangeDetection", "src/python/pycold/_colds_cython.pyx:_sccd_update"]}
{"id": "C36", "title": "sccd_identify reports the date of the first anomaly", "statement": "When sccd_identify reports a disturbance the returned date is the date of the first of the conse_last trailing anomalous observations of the pack; for packs without model it returns 0.", "quantifier": "every pack produced by detect/update, every accepted dist_conse", "why_tests_cant": "depends on the relation of two constants for all conse", "anchors": ["src/python/pycold/colds.py:sccd_identify", "src/python/pycold/utils.py:calculate_sccd_cm", "src/cxx/s_ccd.c:step3_processing_end"]}
{"id": "C37", "title": "the sorting routines sort", "statement": "Every quick_sort variant used (long, int, float, 2-d float co-sorting bands) terminates, stays in the index range, and turns the range into a sorted permutation, moving companion rows along with their keys and touching nothing outside the range.", "quantifier": "every array, every range, any duplicates", "why_tests_cant": "all arrays of all lengths", "anchors": ["src/cxx/utilities.c:quick_sort_long", "src/cxx/utilities.c:partition_long", "src/cxx/utilities.c:quick_sort_float", "src/cxx/misc.c:quick_sort_2d_float", "src/cxx/misc.c:quick_sort_int"]}
{"id": "C38", "title": "coefficient placement in the LASSO wrapper is independent of the predictor order", "statement": "quick_sort_index used by the LASSO wrapper terminates and sorts for all predictor index lists it can receive (distinct), and the coefficients end at their predictors' slots.", "quantifier": "every list of distinct predictor indices", "why_tests_cant": "the variant recurses on an overlapping range; termination depends on values", "anchors": ["src/cxx/utilities.c:quick_sort_index", "src/cxx/misc.c:c_glmnet"]}
{"id": "C39", "title": "nearest-date lookup", "statement": "find_index_clrx returns the first index whose date is closest to the requested date, for every non-empty date array.", "quantifier": "every array and date within 9,999,999 days", "why_tests_cant": "all arrays", "anchors": ["src/cxx/utilities.c:find_index_clrx"]}
{"id": "C40", "title": "medians are medians", "statement": "The median helpers return a value with at least half of the entries on each side for every non-empty (sub)range after sorting, and the average of the two middle values for even lengths.", "quantifier": "every array, every subrange", "why_tests_cant": "all lengths and parities", "anchors": ["src/cxx/misc.c:matlab_2d_float_median", "src/cxx/misc.c:matlab_float_2d_partial_median"]}
{"id": "C41", "title": "duplicate removal keeps the first observation of each date in place", "statement": "matlab_unique keeps exactly the first of each run of equal dates with its own band values and reports their number, for every non-empty array.", "quantifier": "every array", "why_tests_cant": "in-place compaction for all run patterns", "anchors": ["src/cxx/misc.c:matlab_unique"]}
{"id": "C42", "title": "rows of an allocated 2-d array are disjoint and inside the block", "statement": "For all dimensions whose byte size fits the integer types, row r of allocate_2d_array occupies its own columns*member_size bytes inside the malloc'ed block and rows do not overlap the pointer table.", "quantifier": "all rows, columns, member sizes", "why_tests_cant": "address arithmetic for all sizes", "anchors": ["src/cxx/2d_array.c:allocate_2d_array"]}
{"id": "C43", "title": "ordinal day to year and day-of-year", "statement": "The conversion of ordinal days (1972-12-31 on) yields the proleptic Gregorian year and day of year, inverse to the forward conversion.", "quantifier": "every ordinal day >= 720258", "why_tests_cant": "infinitely many days, leap-century rules", "anchors": ["src/cxx/output.c:convert_jday_to_year_doy_from_0001", "src/cxx/input.c:is_leap_year", "src/cxx/misc.c:yearmonth2doy"]}
{"id": "C44", "title": "numpy record dtypes match the C structs", "statement": "Every numpy dtype handed to C as a buffer has the same field offsets and size as the corresponding C struct.", "quantifier": "every field of every record type", "why_tests_cant": "a mismatch corrupts data silently", "anchors": ["src/python/pycold/common.py", "src/cxx/output.h"]}
{"id": "C45", "title": "Kalman state and harmonic coefficients convert without loss", "statement": "Converting harmonic coefficients at a date into a state vector and back is the identity, the state's observation equals the harmonic prediction, and one day of state transition equals re-evaluating the same coefficients a day later.", "quantifier": "all coefficients, all dates (real arithmetic)", "why_tests_cant": "continuum of values", "anchors": ["src/cxx/KFAS.c:fit_cft2vec_a", "src/cxx/KFAS.c:vec_a2fit_cft", "src/cxx/KFAS.c:initialize_ssmconstants"]}
{"id": "C46", "title": "filter covariance stays positive semidefinite and predicted variance non-negative", "statement": "From a positive semidefinite covariance, any sequence of filter steps with non-negative noise keeps it positive semidefinite and the innovation variance non-negative.", "quantifier": "all states, all step sequences (real arithmetic)", "why_tests_cant": "continuum of values, all histories", "anchors": ["src/cxx/KFAS.c:filter1step_validobs", "src/cxx/KFAS.c:filter1step_missingobs"]}
{"id": "C47", "title": "consistent deviations have angle zero", "statement": "If all deviations of a window point in the same direction their mean included angle is a number not above 45 degrees, so that direction never blocks a break.", "quantifier": "all deviation windows, in the float arithmetic used", "why_tests_cant": "needs a value whose rounded normalised dot product exceeds 1", "anchors": ["src/cxx/misc.c:MeanAngl_float"]}
{"id": "C48", "title": "parameter validation accepts exactly the documented ranges", "statement": "validate_parameter_constraints raises exactly for values outside the declared interval/type for every declared parameter, naming the parameter, and lets all others through.", "quantifier": "every value of every parameter", "why_tests_cant": "infinite domains, closed/open ends", "anchors": ["src/python/pycold/_param_validation.py:validate_parameter_constraints", "src/python/pycold/colds.py:_parameter_constraints"]}
{"id": "C49", "title": "pixel indices are consistent between tile, block and position id", "statement": "block id <-> (block_x, block_y), in-block index <-> (row, col) <-> position id are mutually inverse, and every tile pixel belongs to exactly one block and in-block index.", "quantifier": "all tile sizes divisible into blocks, all pixels", "why_tests_cant": "all grid geometries", "anchors": ["src/python/pycold/utils.py:get_block_x", "src/python/pycold/utils.py:get_block_y", "src/python/pycold/utils.py:get_rowcol_intile", "src/python/pycold/utils.py:get_id_inblock", "src/python/pycold/utils.py:get_row_index", "src/python/pycold/utils.py:get_col_index"]}
{"id": "C50", "title": "assembled change-magnitude maps put every pixel at its place", "statement": "assemble_cmmaps writes for each interval a map whose pixel (row, col) is the value computed for this pixel.", "quantifier": "all block layouts n_block_x x n_block_y", "why_tests_cant": "wrong only for non-square layouts", "anchors": ["src/python/pycold/utils.py:assemble_cmmaps"]}
{"id": "C51", "title": "assembled feature/classification maps put every pixel at its place", "statement": "assemble_array of the blocks in block-id order is the n_rows x n_cols tile image.", "quantifier": "all block layouts", "why_tests_cant": "wrong only for non-square layouts", "anchors": ["src/python/pycold/utils.py:assemble_array", "src/python/pycold/pyclassifier.py:PyClassifierHPC.step4_assemble", "src/python/pycold/imagetool/export_change_map.py:main"]}
{"id": "C52", "title": "object-based break dates reach the pixel they were computed for", "statement": "The break date stored for a tile pixel by save_obiaresult is the one reconstruct_reccg passes to obcold_reconstruct together with this pixel's position id and time series.", "quantifier": "all block layouts, all pixels", "why_tests_cant": "index arithmetic over three representations", "anchors": ["src/python/pycold/ob_analyst.py:ObjectAnalystHPC.save_obiaresult", "src/python/pycold/ob_analyst.py:ObjectAnalystHPC.get_allobiaresult_asarray", "src/python/pycold/ob_analyst.py:ObjectAnalystHPC.reconstruct_reccg"]}
{"id": "C53", "title": "job-array ranks share the blocks without gap or overlap", "statement": "With ranks 1..n_cores every block 1..n_blocks is processed by exactly one rank exactly once.", "quantifier": "all n_cores, n_blocks", "why_tests_cant": "all combinations", "anchors": ["src/python/pycold/imagetool/tile_processing.py:main"]}
{"id": "C54", "title": "the default invocation processes the whole tile", "statement": "Running the tile script with its default rank and n_cores processes every block.", "quantifier": "all block layouts", "why_tests_cant": "the omission is silent", "anchors": ["src/python/pycold/imagetool/tile_processing.py:main"]}
{"id": "C55", "title": "the OBCOLD job terminates for every number of cores", "statement": "For every n_cores >= 1, when all ranks 1..n_cores run fairly, the OBCOLD pipeline finishes.", "quantifier": "every number of cores, every fair schedule", "why_tests_cant": "a deadlock is a property of infinite executions", "anchors": ["src/python/pycold/imagetool/tile_processing.py:main", "src/python/pycold/imagetool/tile_processing.py:is_finished_assemble_cmmaps"]}
{"id": "C56", "title": "per-pixel results survive crashes and restarts", "statement": "If ranks crash at any point and are restarted any number of times, a block marked finished has its complete record file, and no block marked finished is recomputed.", "quantifier": "every interleaving of ranks, crashes and restarts", "why_tests_cant": "all crash points", "anchors": ["src/python/pycold/imagetool/tile_processing.py:main"]}
{"id": "C57", "title": "object analysis only reads complete change-magnitude maps", "statement": "No rank reads a change-magnitude map before it has been completely written, in any schedule, including after a crash.", "quantifier": "every schedule and crash point", "why_tests_cant": "race window", "anchors": ["src/python/pycold/imagetool/tile_processing.py:is_finished_assemble_cmmaps", "src/python/pycold/utils.py:assemble_cmmaps"]}
{"id": "C58", "title": "superpixel labels are unique", "statement": "After flood-fill segmentation two pixels have the same positive label iff they were filled from the same seed, for any number of seeds.", "quantifier": "any number of seeds, any fill result", "why_tests_cant": "8-bit label wrap needs more than 255 seeds", "anchors": ["src/python/pycold/ob_analyst.py:segmentation_floodfill"]}
{"id": "C59", "title": "training samples never exceed the available pixels of a class", "statement": "generate_sample_num asks for at most as many samples of each land-cover class as there are pixels of this class in the label map.", "quantifier": "every label map", "why_tests_cant": "only label maps with 0 and without class 8", "anchors": ["src/python/pycold/pyclassifier.py:generate_sample_num"]}
{"id": "C60", "title": "yearly break maps encode type and day of year losslessly", "statement": "The value written for a break decodes to its type (1..4) and its day of year, in the map of its year.", "quantifier": "every break date and type", "why_tests_cant": "all dates", "anchors": ["src/python/pycold/imagetool/export_change_map.py:main"]}
{"id": "C61", "title": "features come from the segment in force", "statement": "extract_features returns for each requested day the coefficients of the segment whose [t_start, next t_start) interval contains the day, and the fill value if there is none.", "quantifier": "every ordered segment list and day list", "why_tests_cant": "all segment layouts", "anchors": ["src/python/pycold/pyclassifier.py:extract_features"]}
{"id": "C62", "title": "change-object decision is monotone", "statement": "For a fixed class, a larger mean magnitude or a larger object never turns a change object into a non-change object; unknown classes are never change objects.", "quantifier": "all magnitudes, sizes, classes", "why_tests_cant": "continuum", "anchors": ["src/python/pycold/ob_analyst.py:is_change_object"]}
{"id": "C63", "title": "packs survive serialisation", "statement": "index_sccdpack(unindex_sccdpack(p)) = p for every pack returned by S-CCD.", "quantifier": "every pack", "why_tests_cant": "all packs", "anchors": ["src/python/pycold/utils.py:index_sccdpack", "src/python/pycold/utils.py:unindex_sccdpack"]}
{"id": "C64", "title": "a failing pixel does not disturb its neighbours in a block", "statement": "When processing a block in OBCOLD mode, a pixel whose detection raises leaves exactly its own CM entries at -9999 and all other pixels' entries untouched.", "quantifier": "every pattern of failing pixels", "why_tests_cant": "all patterns of failures", "anchors": ["src/python/pycold/imagetool/tile_processing.py:main"]}
{"id": "C65", "title": "the variogram is the median absolute successive difference", "statement": "adjust_median_variogram, on two or more observations, returns for every band the median of the absolute differences of successive observations taken in the regime its loop selects (pairs at least the requested distance apart, else plain successive pairs), independent of the previous contents of the output array.", "quantifier": "every observation series of length >= 2", "why_tests_cant": "all series; dependence on uninitialised output cells", "anchors": ["src/cxx/misc.c:adjust_median_variogram"]}
{"id": "C66", "title": "num_obs of obcold_reconstruct records is the number of observations fitted", "statement": "For every record of obcold_reconstruct, num_obs equals the number of observations the segment was fitted with, and the category digit (4, 6 or 8 coefficients) is the one prescribed for that number.", "quantifier": "every series and break array", "why_tests_cant": "off by one shows only when the fitted count is known independently", "anchors": ["src/cxx/cold.c:obcold_reconstruction_procedure"]}
{"id": "C67", "title": "record types of the export tool agree with the library", "statement": "The dtypes with which export_change_map.py reinterprets stored S-CCD packs are the dtypes the library writes.", "quantifier": "every record type", "why_tests_cant": "only packs of the right mode exercise the type", "anchors": ["src/python/pycold/imagetool/export_change_map.py:output_nrtmodel", "src/python/pycold/common.py:nrtmodel_dt"]}
{"id": "C68", "title": "every parameter handed to the C code is range-checked", "statement": "Each parameter an entry point passes to validation has a declared constraint.", "quantifier": "every parameter of every entry point", "why_tests_cant": "needs the cross product of functions and parameters", "anchors": ["src/python/pycold/colds.py:_parameter_constraints"]}
{"id": "C69", "title": "the C code is entered only with equally long one-dimensional arrays", "statement": "cold_detect, obcold_reconstruct, sccd_detect and sccd_update reach C code only if dates, the seven bands and the QA array are one-dimensional and have the same length.", "quantifier": "every combination of array shapes", "why_tests_cant": "all shape combinations", "anchors": ["src/python/pycold/colds.py:_validate_data", "src/python/pycold/_param_validation.py:check_consistent_length"]}
{"id": "C70", "title": "packed QA bands are decoded by priority", "statement": "qabitval_array, _c2 and _HLS return the code of the highest-priority flag (cloud, shadow, snow, water, clear) and only codes the detectors accept; a pixel flagged as fill is decoded as fill.", "quantifier": "every packed value", "why_tests_cant": "all 2^16 packed values, three formats", "anchors": ["src/python/pycold/imagetool/prepare_ard.py:qabitval_array_HLS", "src/python/pycold/imagetool/prepare_ard.py:qabitval_array", "src/python/pycold/imagetool/prepare_ard.py:qabitval_array_c2"]}
{"id": "C71", "title": "Collection 2 bands are rescaled with their own scale factors", "statement": "Each stored band is the product band times its documented scale: reflectance bands by 2.75e-05 and -0.2, surface temperature by 0.00341802 and 149.", "quantifier": "every digital number, both sensor families", "why_tests_cant": "the values stay plausible, so a test on one scene does not notice", "anchors": ["src/python/pycold/imagetool/prepare_ard.py:single_image_stacking", "src/python/pycold/imagetool/prepare_ard.py:single_image_stacking_collection2"]}
{"id": "C72", "title": "omitting block images without usable pixels changes no result", "statement": "Dropping the images of a block that contain no clear, water or snow pixel leaves the result of COLD unchanged for every pixel of the block.", "quantifier": "every time series, every pattern of omitted images", "why_tests_cant": "depends on the neighbours of a pixel", "anchors": ["src/python/pycold/imagetool/prepare_ard.py:single_image_stacking", "src/cxx/cold.c:cold", "src/cxx/cold.c:inefficientobs_procedure"]}
{"id": "C73", "title": "block images are found again with their date", "statement": "Every file name written by the preparation is listed by get_stack_date and yields the year and day of year it was written with.", "quantifier": "all sensors, tiles, dates", "why_tests_cant": "string layout over two programs", "anchors": ["src/python/pycold/imagetool/prepare_ard.py:main", "src/python/pycold/imagetool/tile_processing.py:get_stack_date"]}
{"id": "C76", "title": "job-array ranks share the scenes of the stack preparation without gap or overlap", "statement": "With ranks 1..n_cores every scene 0..n-1 of the stack preparation is handled by exactly one rank exactly once.", "quantifier": "for all n_cores >= 1 and all scene counts", "why_tests_cant": "needs every (n_cores, n) pair, including n < n_cores and n not divisible", "anchors": ["src/python/pycold/imagetool/prepare_ard.py:main"]}
{"id": "C79", "title": "Break type depends on the pixel's own records", "statement": "The disturbance type written for a break is a function of the records of that pixel only.", "quantifier": "all record blocks", "why_tests_cant": "Only shows when a pixel's last record carries a confirmed break and the neighbouring pixel's slopes differ.", "anchors": ["src/python/pycold/imagetool/export_change_map.py:195-211", "src/python/pycold/imagetool/export_change_map.py:495-539"]}
{"id": "C80", "title": "Recent and first disturbance maps", "statement": "The recent (first) disturbance map holds the latest (earliest) year in range whose break map shows type 1 at the pixel, and 0 if there is none.", "quantifier": "all year ranges and map values", "why_tests_cant": "The space of yearly value sequences is unbounded.", "anchors": ["src/python/pycold/imagetool/export_change_map.py:612-650"]}
{"id": "C74", "title": "OBCOLD reconstruction sees what detection saw", "statement": "The reconstruction stage of OBCOLD selects the same observations with the same options as the detection stage.", "quantifier": "every configuration", "why_tests_cant": "The difference only shows with date bounds or Collection 2 data through the whole pipeline.", "anchors": ["src/python/pycold/imagetool/tile_processing.py:get_stack_date", "src/python/pycold/ob_analyst.py:reconstruct_reccg"]}
{"id": "C75", "title": "blocks without images or results pass OBCOLD", "statement": "The last OBCOLD stage finishes for a block without images, and for one where no pixel gives a record.", "quantifier": "every block", "why_tests_cant": "Needs an empty block in a full pipeline run.", "anchors": ["src/python/pycold/imagetool/tile_processing.py", "src/python/pycold/ob_analyst.py:reconstruct_reccg"]}
{"id": "C77", "title": "features are stored at the pixel they belong to", "statement": "predict_features puts the features of each pixel's own records at the pixel's index in the block and the fill value elsewhere.", "quantifier": "every tiling, block and record file", "why_tests_cant": "All tilings and record layouts.", "anchors": ["src/python/pycold/pyclassifier.py:predict_features"]}
{"id": "C78", "title": "the land-cover map an object needs exists", "statement": "For every change magnitude map date, the yearly classification used for its objects is among the years classified, and is that of the year before (or the first year).", "quantifier": "every start date, interval and number of maps", "why_tests_cant": "All series lengths.", "anchors": ["src/python/pycold/imagetool/tile_processing.py:603", "src/python/pycold/ob_analyst.py:get_lastyear_cmap_fromdate"]}
{"id": "C81", "title": "a failing pixel does not stop its block", "statement": "The pixel loop stores the results of all pixels whose detection succeeds, in order, and keeps the change magnitude of each pixel at the pixel's place, whatever other pixels do.", "quantifier": "every sequence of detector outcomes", "why_tests_cant": "Error handlers are rarely exercised.", "anchors": ["src/python/pycold/imagetool/tile_processing.py:447-551"]}
{"id": "C82", "title": "the stack of a block", "statement": "get_stack_date returns exactly the images of the block in the requested date range, each once, in order of date, and reports an empty block as empty.", "quantifier": "every set of files and bounds", "why_tests_cant": "All file sets.", "anchors": ["src/python/pycold/imagetool/tile_processing.py:get_stack_date"]}
{"id": "C83", "title": "an observation moves the filtered prediction towards its value", "statement": "After assimilating one observation the prediction of the new coefficients at the observation date lies between the old prediction and the observed value; an observation equal to the prediction changes no coefficient.", "quantifier": "every coefficient vector, date, observation, noise h >= 0 and positive semidefinite covariance (exact arithmetic)", "why_tests_cant": "the covariance reached depends on the whole history of gaps and observations; a sign slip in one band shows only for particular histories", "anchors": ["src/cxx/s_ccd.c 1597-1616", "src/cxx/KFAS.c 49-131"]}
{"id": "C84", "title": "angle weighting of the change magnitude", "statement": "The weight given to a change magnitude is between 0 and 1, does not increase with the angle, is 1 up to the lower and 0 from the upper bound, without jump.", "quantifier": "every angle and every pair of bounds low < high (exact arithmetic)", "why_tests_cant": "a continuum of angles; the jump at a bound is a single point", "anchors": ["src/cxx/utilities.c 1241-1257", "src/cxx/cold.c 3567, 4276"]}
{"id": "C85", "title": "why an observation disappears", "statement": "Every clear observation either stays, or was flagged by the two-step masking of a window of the series, or was the first observation of a window tested without success whose magnitude exceeds T_MAX_CG; an observation failing that test is gone from the series and from every fit reported.", "quantifier": "every kernel, parameter set and ascending series", "why_tests_cant": "removal happens deep inside both loops by shifting arrays in place; a test sees only its absence", "anchors": ["src/cxx/cold.c:3616-3652", "src/cxx/cold.c:4395-4410", "src/cxx/cold.c:3047-3088"]}
{"id": "C86", "title": "the initial segment spans no gap", "statement": "Within a category 14 record two neighbouring observations between t_start and t_break are at most the permitted gap (one year) apart.", "quantifier": "every kernel, parameter set and ascending series", "why_tests_cant": "needs a gap, instability and a look-back break in one series", "anchors": ["src/cxx/cold.c:3029-3045", "src/cxx/cold.c:3660-3773"]}
{"id": "C87", "title": "deviations come from a model of the right side", "statement": "Each deviation tested while monitoring is that of one model fitted only to earlier observations of the series, with the number of coefficients their count allows and, if seasonal, with the RMSE over the same observations; each deviation tested when looking back is from one model fitted only to later observations.", "quantifier": "every kernel, parameter set and ascending series", "why_tests_cant": "the model in use may be many observations old; mixing coefficients counts or windows changes values slightly", "anchors": ["src/cxx/cold.c:3432-3560", "src/cxx/cold.c:3802-4246"]}
{"id": "C88", "title": "the coefficients of a record are the fit of its observations", "statement": "The model of every record is the result of fitting exactly the observations attributed to it, with four terms for categories 14 and 24 and as many as the category says otherwise.", "quantifier": "every kernel, parameter set and ascending series", "why_tests_cant": "a stale coefficient array gives plausible values", "anchors": ["src/cxx/cold.c:3700-3773", "src/cxx/cold.c:3830-4100", "src/cxx/cold.c:4600-4725"]}
{"id": "C89", "title": "a segment starts from a stable stretch", "statement": "Every record of category other than 14 and 24 contains, between t_start and t_end, at least twelve observations of the series that span at least 366 days without a gap above the limit and whose four-term fit did not fail the stability test (a NaN statistic passes).", "quantifier": "every kernel, every parameter set with conse >= 1, every strictly ascending series", "why_tests_cant": "stability is decided on a window that masking and shifting have changed since", "anchors": ["src/cxx/cold.c:2987-3007", "src/cxx/cold.c:3099-3180", "src/cxx/cold.c:3290-3376"]}
{"id": "C90", "title": "which observations a fit used, and how old it may be", "statement": "A category 14 record is fitted to all surviving observations from t_start to t_end, a record of any other category but 24 to the first num_obs of them; a category 24 record leaves out of the surviving observations from t_start on only those its masking flags. A record closed by a break misses at most as many observations as the refit rule permits, an open one at most conse more. A monitored segment is refitted at every step up to 24 observations and afterwards exactly when the new observations exceed the permitted number; that number refers to the observations at the first fit or at the latest refit beyond 24.", "quantifier": "every kernel, every parameter set with conse >= 1, every strictly ascending series", "why_tests_cant": "refits depend on two counters changed in four places", "anchors": ["src/cxx/cold.c:3819-3840", "src/cxx/cold.c:4014-4108", "src/cxx/cold.c:4389", "src/cxx/cold.c:4535-4680"]}
{"id": "C91", "title": "Fitting and predicting use the same linear model", "statement": "auto_ts_fit_float (and auto_ts_fit_sccd) hands c_glmnet exactly the regressors (date, cosine and sine of the harmonics, column by column) and the values of the window, independent of what fresh memory and the caller's buffers held; it fails exactly when c_glmnet does. Otherwise predicting at any date from the stored coefficients (slope stored times 10000) gives the linear model c_glmnet returned, entries beyond the terms are zero so that predicting with more terms changes nothing, the residuals are observation minus prediction and the error is their norm over sqrt(nums-df). All accesses are within the arrays. The phases of the harmonics in floating point are the same in fit and prediction.", "quantifier": "for all windows, dates, values, buffers, numbers of terms 2/4/5/6/8 (COLD) and 2/4/6 (S-CCD), and for any behaviour of c_glmnet", "why_tests_cant": "tests compare final records on a few pixels; a stale coefficient, a wrong column order or a slightly different phase changes fits only by little", "anchors": ["src/cxx/misc.c:1642-1711", "src/cxx/misc.c:2017-2213", "src/cxx/misc.c:2241-2508"]}
{"id": "C92", "title": "Every fit COLD asks for is well posed", "statement": "Every window COLD hands to a fit holds strictly ascending dates and at least two observations more than coefficients; fits with six or eight coefficients get three observations per coefficient spanning more than a year, and the outlier mask gets at least six observations. Hence replacing the numerical routines by ones that fail on all other windows never changes the result.", "quantifier": "every kernel, every parameter set with conse >= 1, every series; the whole entry point for Collection 2 data or when snow does not dominate", "why_tests_cant": "windows are cut from a series that shrinks while it is processed; an ill-posed fit gives a plausible model with an undefined error", "anchors": ["src/cxx/cold.c:3047-3053", "src/cxx/cold.c:3269", "src/cxx/cold.c:3673", "src/cxx/cold.c:3854", "src/cxx/cold.c:4029", "src/cxx/cold.c:4562-4635", "src/cxx/cold.c:5010-5065", "src/cxx/cold.c:5246", "src/cxx/misc.c:2490"]}
{"id": "C93", "title": "Every fit and filter step S-CCD asks for is well posed", "statement": "In S-CCD every window handed to the outlier mask or to a fit holds at least 18 observations with strictly ascending dates (seven for the record before the first segment), the fits of a segment span at least 366 days, the state is initialised for a day after its window, the sum of squares is always divided by at least twelve, and every filter step advances at least one day. Replacing the numerical routines by ones that fail otherwise never changes the result of sccd_detect, nor of an sccd_update that follows a detection and any number of updates.", "quantifier": "every kernel, every ordered input; sccd_detect with any conse >= 1; sccd_update with conse 8 after any history of updates and identifications whose dates fit the 16-bit day counts", "why_tests_cant": "the divisor is a 16-bit counter carried from call to call and through masking; one small value gives a negative or infinite variance and silently stops all later detection", "anchors": ["src/cxx/s_ccd.c:709-712", "src/cxx/s_ccd.c:997", "src/cxx/s_ccd.c:2800-2832", "src/cxx/s_ccd.c:3245"]}
{"id": "C94", "title": "Snow pixels are updated observation by observation", "statement": "For a pixel in snow monitoring (status 3), an update takes the observations into the model in order, once each, all but the last eight, which are kept for the next update; two or more updates with consecutive batches give the same pack as one update with all rows (and fail exactly when it fails). Every observation enters the model once from detection on.", "quantifier": "every kernel that stores its state exactly, every pack in status 3 with eight stored days in range, every list of batches with days in the 16-bit range, ordered or not", "why_tests_cant": "the difference is in covariances and coefficients that no test compares; a model that has seen an observation twice looks plausible", "anchors": ["src/cxx/s_ccd.c:3203-3280", "src/cxx/s_ccd.c:3281-3345", "src/cxx/s_ccd.c:412-421"]}
{"id": "C95", "title": "A segment's filter is started on an ascending series and its error is the sum of its squares", "statement": "step1_ssm_initialize runs the filter over the stable stage moved back by the smallest whole number of years covering it (cut to a day), then over the stage itself: dates ascend strictly, no read leaves the arrays, each observation of the stage is taken in once in its place, and the error sum holds the squared residuals of the stage; the covariance it starts from is symmetric and positive semidefinite. The running sum is the sum of squares, short by less than one per observation.", "quantifier": "every series, stage and filter; every list of residuals", "why_tests_cant": "the extension is computed with truncated quarter days and clamped indices; the sum wraps silently in an unsigned 32-bit counter", "anchors": ["src/cxx/s_ccd.c:349-506", "src/cxx/s_ccd.c:1576-1634", "src/cxx/s_ccd.c:2055", "src/cxx/s_ccd.c:3268-3270", "src/cxx/s_ccd.c:3312"]}
{"id": "C96", "title": "Robust outlier mask", "statement": "auto_mask reads only the window start..end of the dates and of bands 2 and 5, hands both robust fits the same regressors it predicts with, and writes 1 at position i of the mask exactly when band 2 or band 5 of observation start+i is further from its fit than the bound; every reweighting pass of the robust fit has as many well-weighted observations as coefficients, and the regressors determine the coefficients", "quantifier": "every window, every date and value, every least-squares solver", "why_tests_cant": "tests see the flags of a few windows; they cannot show that no pass of the reweighting ever loses the observations it needs, nor notice that windows of up to a year are fitted with twice the same period", "anchors": ["src/cxx/misc.c:1459-1557", "src/cxx/misc.c:1275-1340", "src/cxx/multirobust.c:241-424", "src/cxx/multirobust.c:485-509"]}
{"id": "C97", "title": "Break map of the object analysis", "statement": "For every map of superpixels, patches, magnitudes and classes: modeby returns the mode of every label's pixels in the order of np.unique; a pixel is marked as changed exactly when is_change_object accepts the mean magnitude, the mode of the classes and the size of the patch of its own superpixel; the background is never marked; and the break written for a marked pixel is its own date, or that of the previous map where it has none", "quantifier": "every size of map, every labelling, every decision function", "why_tests_cant": "the grouping depends on sorting, cut positions and three lists that must stay aligned; tests compare one tile with a stored result", "anchors": ["src/python/pycold/ob_analyst.py:modeby", "src/python/pycold/ob_analyst.py:object_analysis", "src/python/pycold/ob_analyst.py:ObjectAnalystHPC.obia_execute", "src/python/pycold/ob_analyst.py:ObjectAnalystHPC.save_obiaresult"]}
{"id": "C98", "title": "Every pixel of the yearly land-cover maps has the class of its own records", "statement": "For every order in which ranks generate features and classify blocks, and every order in which the directory is listed, step4_assemble writes for each year a map of the size of the tile whose pixel is the class the forest gives to the features of that position's own records on 1 July, and 255 where it has none; the files of a year are taken in the order of the blocks", "quantifier": "every square layout, number of years between 1900 and 2199, record files, forest, schedule of stages, listing order", "why_tests_cant": "file names are parsed back from a listing whose order depends on the file system; the tests use four blocks and one order", "anchors": ["src/python/pycold/pyclassifier.py:PyClassifierHPC._get_fullclassification_forcertainyear", "src/python/pycold/pyclassifier.py:PyClassifier.classification_block", "src/python/pycold/pyclassifier.py:PyClassifierHPC.step4_assemble", "src/python/pycold/utils.py:assemble_array"]}
{"id": "C99", "title": "The classification stages read only complete files and finish", "statement": "In every schedule of any number of ranks no rank reads a feature file, forest, block map or yearly map that is absent or half written, and all ranks finish with complete maps; also after a crash and resubmission", "quantifier": "every number of ranks and blocks, every schedule, every crash point", "why_tests_cant": "race windows of milliseconds, and resubmission of a job array", "anchors": ["src/python/pycold/imagetool/tile_processing.py:main", "src/python/pycold/pyclassifier.py:PyClassifierHPC.step1_feature_generation", "src/python/pycold/pyclassifier.py:PyClassifierHPC.step2_train_rf", "src/python/pycold/pyclassifier.py:PyClassifierHPC.step3_classification", "src/python/pycold/pyclassifier.py:PyClassifierHPC.step4_assemble"]}
{"id": "C100", "title": "Break dates read back from the object analysis", "statement": "The breaks that reconstruct_reccg passes to obcold_reconstruct for a pixel are exactly the values of the break maps of all snapshots at this pixel, in the order of the snapshots, whatever the order of the directory listing and however ranks interleave; file names of different snapshots and blocks are never confused", "quantifier": "every block layout, every set of snapshots with six-digit dates, every break map, every listing order, every interleaving of the ranks", "why_tests_cant": "depends on file-name parsing, on a stride view and on the timing of several processes; tests use one block and one process", "anchors": ["src/python/pycold/ob_analyst.py:obiaresname_fromdate", "src/python/pycold/ob_analyst.py:ObjectAnalystHPC.save_obiaresult", "src/python/pycold/ob_analyst.py:ObjectAnalystHPC.is_finished_object_analysis", "src/python/pycold/ob_analyst.py:ObjectAnalystHPC.get_allobiaresult_asarray"]}
{"id": "C101", "title": "S-CCD breaks have a reason, and only then", "statement": "A monitoring step of S-CCD closes the segment exactly if all conse observations of the window exceed the change threshold and their mean angle is not above the limit; otherwise it drops the observation as an outlier exactly if its magnitude is above the outlier threshold, and takes it into the model in all other cases. Every record of a call comes from such a window of the call's observations or from the look-back over a window before the initialised model whose observations all exceed the threshold; the stored magnitude is the smallest of the window", "quantifier": "every kernel of numerical routines, every parameter, every series, every pack handed to an update", "why_tests_cant": "exclusive or inclusive comparison, early exit of the scan and the running minimum show only for particular magnitudes", "anchors": ["src/cxx/s_ccd.c:step2_KF_ChangeDetection", "src/cxx/s_ccd.c:step1_cold_initialize", "src/cxx/s_ccd.c:sccd_standard"]}
{"id": "C102", "title": "The pinpoint option adds entries and changes nothing else", "statement": "If the gate of the pinpoint option is not above the change threshold and both are at most the cap, sccd_detect with the pinpoint option returns the same mode, records, model, queue and errors as without it", "quantifier": "every kernel, every parameter with gate <= threshold <= cap, every series", "why_tests_cant": "the option changes where the scan of a window stops; only a comparison of two runs over all window contents shows the results agree", "anchors": ["src/cxx/s_ccd.c:step2_KF_ChangeDetection", "src/cxx/s_ccd.c:sccd_standard"]}
{"id": "C103", "title": "Pinpoint entries: one per year, the largest anomaly", "statement": "The pinpoint entries returned by sccd_detect are in strictly increasing order of the 365.25-day year they fall in. Each belongs to a window of the call's observations whose first three magnitudes reach the gate, and holds its date, its eight observations and, for every prefix of the window, the smallest magnitude and the mean angle. Whenever the run meets an anomaly of positive magnitude, the entry of that year has at least this magnitude", "quantifier": "every kernel of numerical routines, every parameter with gate and threshold at most the cap, every sorted series, every state the run goes through", "why_tests_cant": "entries are overwritten in place when a larger anomaly of the same year appears; a wrong index or comparison keeps a plausible but wrong entry", "anchors": ["src/cxx/s_ccd.c:step2_KF_ChangeDetection", "src/cxx/s_ccd.c:sccd_standard"]}
{"id": "C104", "title": "Greening test of sccd_identify", "statement": "For a pack left by sccd_detect in monitoring mode with a window of six, sccd_identify computes, per band, the median of observed minus predicted reflectance over exactly the last conse_last clear observations, each compared with the prediction for its own date; it returns a date exactly when the run is long enough, magnitude and angle pass their thresholds and the medians of bands 2, 3, 4 do not all point to greening; otherwise it returns 0 and the pack unchanged.", "quantifier": "All kernels, parameters, series with 16-bit values and strictly increasing dates, all coefficient evaluations and thresholds.", "why_tests_cant": "Tests use one pixel and look only at the returned date; which eight-slot positions feed the median, and what happens for other window sizes, is not observable in them.", "anchors": ["src/python/pycold/utils.py:536-564", "src/python/pycold/colds.py:517-543", "src/python/pycold/constants.yaml:47-48", "src/python/pycold/common.py:5"]}
{"id": "C105", "title": "S-CCD models are filter runs over the segment's own observations", "statement": "In one call the model behind every record closed while monitoring, and the model saved in monitoring mode, is obtained as follows: a stable stretch of at least 18 observations over 366 days, less the observations flagged by the robust fit or too far from the initial fit, opens a segment and initialises the filter (with the state of the previous segment); each later observation is judged on the window it starts and is filtered in if regular, skipped if an outlier, and closes the segment if a change, after which the search starts at that very observation. The counter equals the number of observations taken in (plus those of the saved model that is continued), start and break dates are those of the first observation and of the closing one; a first record before the first segment holds the observations left in front of it. Nothing else creates a record or alters a model.", "quantifier": "All kernels, parameters with a window of at least one and thresholds up to the cap, all series, all packs passed to an update.", "why_tests_cant": "The filter state is not visible in the output of a test, and an observation filtered twice, left out or fed with the wrong gap changes a record by a small amount only; the tests compare few numbers of one pixel.", "anchors": ["src/cxx/s_ccd.c:509-1473", "src/cxx/s_ccd.c:1755-2085", "src/cxx/s_ccd.c:2219-2502", "src/cxx/s_ccd.c:2750-2945"]}
{"id": "C106", "title": "Coefficient maps show the curve in force on 1 July, at its own pixel", "statement": "With --coefs the export tool writes, for every year, band and coefficient, an image of the tile whose pixel is the coefficient of that pixel's curve in force on 1 July (for cv the magnitude of its first confirmed break in the year), and the fill value where there is none.", "quantifier": "every record set in any order, every list of bands and coefficients, every block layout and number of ranks", "why_tests_cant": "Errors depend on layout, on missing block files and on blanks in the option; tests would need full tiles of all shapes.", "anchors": ["src/python/pycold/imagetool/export_change_map.py:extract_features", "src/python/pycold/imagetool/export_change_map.py:main"]}
{"id": "C107", "title": "The Python prediction is the C prediction and the filter's forecast", "statement": "predict_ref (utils.py) of a model of 4, 6 or 8 coefficients is auto_ts_predict_float of the same coefficients on the same day; other sizes of four or more are rounded down to 4, 6 or 8, fewer than four or a model of another length raise. Of the coefficients stored with a filter state, it is the observation forecast by the filter after that many days without an observation.", "quantifier": "all models, days, numbers of coefficients, frequencies, filter states and gaps (exact arithmetic)", "why_tests_cant": "the three formulas live in three files and two languages; a test compares them on a few models only, and a difference of one term shows on some dates only", "anchors": ["src/python/pycold/utils.py:465-505", "src/cxx/misc.c:1642-1711", "src/cxx/KFAS.c"]}
{"id": "C108", "title": "Index images number the pixels one to one", "statement": "generate_rowcolimage writes a number for every pixel from which row and column can be recovered, for images up to 9999 columns.", "quantifier": "all image sizes, all pixels", "why_tests_cant": "test images are small and square", "anchors": ["src/python/pycold/utils.py:508-533"]}
{"id": "C109", "title": "From observation to observation the code runs the daily Kalman filter", "statement": "S-CCD keeps harmonic coefficients instead of a state, converts them at each observation, and steps only the covariance over days without one. For any sequence of observations taken or rejected, the coefficients and covariance it ends with are the state and covariance of the textbook Kalman filter run on every day (rejected days as missing), and its residuals are that filter's innovations. The constants of initialize_ssmconstants are those of the harmonic model.", "quantifier": "all sequences of observations at increasing dates, all starting coefficients, covariances and noise levels above the tolerance", "why_tests_cant": "agreement over long sequences depends on an exact cancellation between conversion and transition; tests compare stored numbers of a few pixels", "anchors": ["src/cxx/KFAS.c:10-127", "src/cxx/KFAS.c:391-577", "src/cxx/s_ccd.c:1576-1659", "src/cxx/s_ccd.c:2014-2059"]}
{"id": "C110", "title": "Cutting an image into blocks reads the right bytes", "statement": "The hand-written byte strides passed to as_strided give, for every band of every stacked image and for the OBCOLD break maps, block pixel (i,j,r,c) = image pixel (i*bh+r, j*bw+c), and never read outside the buffer of the band, whatever the item size of the array and the shape of the image.", "quantifier": "every grid, every image shape, every item size and every pixel value", "why_tests_cant": "as_strided checks nothing: wrong strides or a smaller image give plausible values or unrelated memory, depending on the allocator", "anchors": ["src/python/pycold/imagetool/prepare_ard.py:single_image_stacking_hls", "src/python/pycold/imagetool/prepare_ard.py:single_image_stacking_hls14", "src/python/pycold/imagetool/prepare_ard.py:single_image_stacking", "src/python/pycold/imagetool/prepare_ard.py:single_image_stacking_collection2", "src/python/pycold/ob_analyst.py:save_obiaresult"]}
{"id": "C111", "title": "The window of a tile is the bounding box of its feature", "statement": "For every GeoJSON geometry, explode lists its positions in order and bbox returns the smallest box containing them; the feature used is the first with the requested id.", "quantifier": "every nesting depth, number of rings and positions", "why_tests_cant": "the space of geometries is unbounded; tests use one polygon", "anchors": ["src/python/pycold/imagetool/prepare_ard.py:get_feature", "src/python/pycold/imagetool/prepare_ard.py:explode", "src/python/pycold/imagetool/prepare_ard.py:bbox"]}
{"id": "C112", "title": "A scene has one date, and every stored image lies in the range written", "statement": "The date computed for starting_last_dates.txt, the date compared with the requested range and the date read back from the stored file name are the same day for every scene name; every stored image lies between the two dates written, so the change magnitude output sized from them has a slot for every observation.", "quantifier": "every scene name, every set of scenes, every range, with any run before", "why_tests_cant": "the three dates come from different slices of names of four products; a disagreement shows as an index outside an array in C", "anchors": ["src/python/pycold/imagetool/prepare_ard.py:main", "src/python/pycold/imagetool/prepare_ard.py:single_image_stacking_hls", "src/python/pycold/imagetool/prepare_ard.py:single_image_stacking", "src/python/pycold/imagetool/prepare_ard.py:single_image_stacking_collection2", "src/python/pycold/imagetool/tile_processing.py:reading_start_dates_nmaps", "src/python/pycold/imagetool/tile_processing.py:get_stack_date"]}
{"id": "C113", "title": "Monitoring is change detection with the daily Kalman filter", "statement": "In exact arithmetic the monitoring of a segment (look-ahead predictions, normalised deviations, smallest magnitude with early exit, mean angle, verdict, filter or skip) gives for every series the verdicts of the textbook procedure: forecasts of the Kalman filter run day by day, deviations of bands 1 to 5 divided by the larger of the minimum rmse and the root of the residual sum over n - 6, a break when all conse magnitudes reach tcg and the mean angle is at most the limit, otherwise noise when the current magnitude exceeds the maximum, otherwise an update. The state it leaves is the state of that filter.", "quantifier": "every series, every number of consecutive observations, every start state, every threshold and frequency", "why_tests_cant": "tests compare records of sample pixels with stored ones; no test computes the forecasts or verdicts independently", "anchors": ["src/cxx/s_ccd.c:KF_ts_predict_conse", "src/cxx/s_ccd.c:step2_KF_ChangeDetection", "src/cxx/s_ccd.c:step3_processing_end", "src/cxx/s_ccd.c:sccd_standard"]}
{"id": "C114", "title": "The seasonal rmse is that of the nearest observations in day of year", "statement": "While COLD monitors, the rmse it divides the newest deviation by is, in exact arithmetic, the root of the mean square of the residuals (over 2 * category) of 3 * category fitted observations, the same for all bands, none of the other fitted observations being nearer in day of year. The distance used is that to the nearest anniversary of 365.25 days, whatever rounding error below 1/2922 year the quotient has. With 3 * category fitted observations in all it is the rmse of the fit. The new deviations are those of bands 1 to 5 over the larger of this and the minimum rmse.", "quantifier": "every list of dates, every residuals, every category, every date of the new observation", "why_tests_cant": "tests compare whole records; no test looks at the temporary rmse or at which residuals enter it", "anchors": ["src/cxx/cold.c:stand_procedure", "src/cxx/misc.c:quick_sort_2d_float", "src/cxx/misc.c:matlab_2d_array_norm_float"]}
{"id": "C115", "title": "Stability test and look-back of a new segment", "statement": "In exact arithmetic, for COLD and S-CCD: the statistic a new segment must not exceed is the sum over bands 1 to 5 of the squares of (change of the fitted linear part over the window plus the larger absolute error at its two ends) over the larger of the minimum rmse and the root mean square error of the fit; the look-back from the start takes the earlier observations one by one, stops at the first whose window of up to conse earlier observations all deviate by more than tcg with mean angle below the limit, drops one that deviates by more than the maximum, takes in the others, and leaves the arrays and the start accordingly.", "quantifier": "every series, window, regression result, buffers, thresholds (tcg below 9999) and conse", "why_tests_cant": "tests compare records of sample pixels; the statistic and the look-back are not observable there", "anchors": ["src/cxx/cold.c:stand_procedure", "src/cxx/s_ccd.c:step1_cold_initialize", "src/cxx/misc.c:auto_ts_fit_float", "src/cxx/misc.c:auto_ts_fit_sccd", "src/cxx/misc.c:auto_ts_predict_float"]}
{"id": "C116", "title": "COLD is one pass over the clear observations", "statement": "For ascending clear observations and any numerical kernel (mask, fit, stability statistic, deviations, norm, mean angle, change magnitude), stand_procedure returns exactly the result of a procedure without indices, shared arrays and counters that takes the observations one by one: join, try to start a segment (gap, mask, stability, look-back), watch (refit when due), and decide (break, noise or one more observation), then the last record; the same records, change magnitudes, decisions and kept observations, and failure, undefined behaviour or termination in the same cases.", "quantifier": "every ascending series, kernel, conse >= 1, thresholds below 9999, with and without change magnitudes", "why_tests_cant": "a test compares outputs on sample series; equality of two procedures on all series and kernels cannot be sampled, and index errors show only in rare combinations of gap, mask, look-back and noise", "anchors": ["src/cxx/cold.c:stand_procedure"]}
{"id": "C117", "title": "Records closed by a break stay when the series grows", "statement": "If the series x and its extension x ++ y both succeed with the same kernel (so with the same minimum rmse), the records of x with change probability 100 are, in order, the first records of x ++ y, and every decision taken on x (windows, deviations, verdicts, change magnitudes) is taken again, first and in the same order, on x ++ y.", "quantifier": "every x, y with x ++ y ascending, any kernel", "why_tests_cant": "concerns all extensions of all series; a regression test fixes one series", "anchors": ["src/cxx/cold.c:stand_procedure"]}
{"id": "C118", "title": "COLD forgets what was before a break", "statement": "If two series each have a record closed by a break on the same day (not an initial segment), and share the observations from that day on, then all records after it are the same in both, whatever came before, whatever the change magnitude buffers.", "quantifier": "every two series, any kernel", "why_tests_cant": "ranges over all pairs of pasts; hidden state carried over a break (skip counter, window, fitted model) shows only in a comparison of runs", "anchors": ["src/cxx/cold.c:stand_procedure"]}
{"id": "C119", "title": "Only differences of dates matter to the COLD state machine", "statement": "Without change magnitudes, if all dates are moved by the same number of days and the values are transformed so that the numerical routines return transformed models and the same flags, stability statistics, deviations, norms and angles, then stand_procedure returns the transformed result: the same records with dates moved (a record without a break keeps 0), the same decisions and the same kept observations.", "quantifier": "every ascending series, every translation, every transformation of values and models, any two kernels so related", "why_tests_cant": "relates runs on infinitely many pairs of inputs; a constant such as an absolute date hidden in one branch shows only for some pair", "anchors": ["src/cxx/cold.c:stand_procedure"]}
{"id": "C120", "title": "obcold_reconstruct cuts a list at the accepted dates", "statement": "For an ascending nonempty series and sorted break dates, the segment loop of obcold_reconstruction_procedure, which keeps indices into an array that shrinks while outliers are removed, returns exactly the result of cutting the list of clear observations: each accepted date cuts at the nearest observation (the earlier of two); a piece with fewer than six observations, or fewer than six left after either outlier stage, stays in front of the next piece; otherwise its record is made from the observations left and the up to conse observations that follow. The accepted dates are those at least 366 days after the previous accepted one (or day 0), in sorted order, and the last record returned has its break and probability removed.", "quantifier": "every kernel, ascending series, break list below 2^31 within 9999999 days of the observations, conse >= 1", "why_tests_cant": "a test compares records on samples; the break index is searched in the shrunken array, and a shift by a removed outlier shows only for some combinations of masks and dates", "anchors": ["src/cxx/cold.c:obcold_reconstruction_procedure", "src/cxx/utilities.c:find_index_clrx"]}
{"id": "C121", "title": "obcold_reconstruct: order of dates, superfluous dates, and its own breaks", "statement": "The whole outcome of a call of obcold_reconstruct is the same for every order of the break dates, and the same when the dates that are not accepted (less than 366 days after the previous accepted one, or after day 0) are left out. Called with the breaks of its own result it returns that result again, provided these breaks are at least 366 days apart and the last record ends with the last clear observation; without the distance it may not, because dates 366 days apart can be moved to observations less than 366 days apart.", "quantifier": "every kernel, series and break list as in C19", "why_tests_cant": "all orders of all break lists; a sort or filter that depends on the order shows only for some layouts", "anchors": ["src/cxx/cold.c:obcold_reconstruction_procedure", "src/python/pycold/_colds_cython.pyx:_obcold_reconstruct"]}
{"id": "C122", "title": "obcold_reconstruct depends on dates only through differences, after the first break", "statement": "If all observation dates and break dates move by the same number of days, the values change in any way, and the numerical routines answer with transformed models and deviations and the same flags, the segment loop of obcold_reconstruction_procedure returns the moved records (same counts, categories, probabilities; start, end and break moved; the record without break keeps 0), and fails in the same cases. The accepted dates move along if the first date is at least day 366 before and after the move; otherwise they may not, because the first distance is measured from day 0.", "quantifier": "every pair of related kernels, ascending series, sorted break list, move", "why_tests_cant": "two infinite families of runs are compared; an absolute date in one place shows only for series near it", "anchors": ["src/cxx/cold.c:obcold_reconstruction_procedure", "src/cxx/utilities.c:find_index_clrx"]}
{"id": "C123", "title": "obcold_reconstruct uses every clear observation at most once", "statement": "The observations fitted by the records of obcold_reconstruct, one record after the other, are a subsequence of the clear observations: none is used twice. Every record is fitted to at least six, so there are at most a sixth as many records as clear observations, and a call with fewer than 246 clear observations never writes outside the array of 40 records, whatever the break dates. If the numerical routines find no outliers, every clear observation is in a record, but for fewer than six at the end of the series.", "quantifier": "every kernel, series and break list as in C19", "why_tests_cant": "the observations behind a record are not part of the output; all break layouts and masks", "anchors": ["src/cxx/cold.c:obcold_reconstruction_procedure"]}
{"id": "C124", "title": "Breaks confirmed by COLD survive the reconstruction at their dates", "statement": "The dates of the breaks confirmed by stand_procedure are all accepted by obcold_reconstruction_procedure (they are at least 366 days apart), and between them lie at least six clear observations. Reconstructing a series with the same dates from them, every record with a break ends at one of these breaks, at the very date; if the outlier stages remove nothing, at all of them, in order.", "quantifier": "every COLD kernel, reconstruction kernel and ascending series with dates from day 366 on", "why_tests_cant": "relates two procedures on all series and kernels; a break moved by one observation or dropped by the spacing rule shows only for some layouts", "anchors": ["src/cxx/cold.c:stand_procedure", "src/cxx/cold.c:obcold_reconstruction_procedure"]}
{"id": "C125", "title": "Detection followed by reconstruction reports the detected breaks", "statement": "Let cold run its standard procedure on the rows of a pixel and let obcold_reconstruct be called on the same rows with the break dates of probability 100. Every break of the second result is one of these dates. If the outlier stages remove nothing, the break dates of the second result are exactly these dates followed by 0 if at least six clear observations follow the last date, and all but the last of them followed by 0 otherwise. A break found by monitoring has conse observations behind it, so that with conse at least 6 none is lost; with conse 4 one can be.", "quantifier": "every row list with dates from day 366 on, every kernel of both procedures, every conse", "why_tests_cant": "relates the results of two entry points over all inputs; the loss of the last break needs a small conse and a short tail", "anchors": ["src/cxx/cold.c:cold", "src/cxx/cold.c:obcold_reconstruction_procedure"]}
{"id": "C126", "title": "obcold_reconstruct forgets what was before a break", "statement": "If the clear observations of two pixels agree from day b on, obcold_reconstruct is called for both with the same break dates and both results have a record broken at day b, then the records after it are the same: dates, counts, category, probability, model, observations and deviations. Such records exist, since the last record has no break.", "quantifier": "all pairs of row lists, all break lists, all kernels, snow and junk arguments", "why_tests_cant": "a dependence on earlier observations through shared arrays, indices or the position of the break in the list shows only for particular pairs of inputs", "anchors": ["src/cxx/cold.c:obcold_reconstruction_procedure"]}
