# Machine-checked model of pycold — design

Subject: GERSL/pycold, the pinned checkout in /repo.  Nothing in /repo is built or run; the model is
written from the source text.  Prover: Coq 8.16.1 (`rocq/`, logical name `Verif`).

## 1. Approach

* Discrete control is modelled exactly.  Loop bounds, array indices (the C code's own 1-based/0-based mix),
  record bookkeeping, mode transitions, queue handling, block/pixel arithmetic, marker files and schedules
  are Gallina functions following the source function by function.  Every definition cites file and lines.
* Numerical kernels are *arbitrary*.  Lasso fits, RIRLS masks, deviations, angles, medians and Kalman
  likelihoods are Section variables (universally quantified, no laws assumed) unless the property is about
  them.  A theorem therefore holds for every numerical outcome, including failed fits and NaN.  Where a
  property is about arithmetic (sorting, medians, calendars, Kalman algebra, the float angle) the routine is
  modelled concretely instead.
* Floats used in comparisons are `fl := NaN | Fin z`: an order-preserving image of the finite floats and
  infinities in Z plus NaN; every comparison with NaN is false, as in C.
* Undefined behaviour is an outcome.  The outcome type is `Ok a | Fail | UB | Fuel`: normal result, error status
  returned by the C code, out-of-bounds access / indeterminate read / invalid conversion, and out of fuel.
  Array reads go through a checked `get`.  Memory safety is "never UB", termination is "never Fuel with
  the stated fuel".
* Loops are structural recursion on fuel; termination theorems give explicit sufficient fuel.
* Specifications are separate: sortedness, permutations, subsequences, first-of-date selection, trailing runs,
  `Z` calendars, graph-free schedules as inductive relations — none of them mention model helpers.
* A false property gets a `_refuted` theorem with a concrete witness evaluated by `vm_compute` plus, where
  useful, the strongest true variant.

## 2. Trusted base

1. The Coq 8.16.1 kernel (and `vm_compute`, used for the concrete witnesses).
2. The axioms `Print Assumptions` prints for each theorem (collected in section 6; expected: none, except the
   stdlib axioms of `Reals` for C45/C46).
3. The reading of the C / Cython / Python source into Gallina.  Code modelled and not modelled: section 5.
4. The compiler, libc, GSL, glmnet Fortran, numpy, sklearn, OpenCV and the operating system are outside the
   model.

## 3. Plan per property

| id | model | proof |
|----|-------|-------|
| C01 | date check of `cold` | induction over the date list |
| C02 | selection loop of `stand_procedure` | induction; spec = filter + first-of-date on lists |
| C03 | `preprocessing` counters | induction; spec = count_occ-like filters |
| C04 C05 C06 C07 C08 C09 C10 C11 C15 | the whole state machine of `stand_procedure` (init test, look-back, monitoring, noise removal, both endings), numerical kernel as oracle | one inductive invariant, a decreasing measure, ghost log of decisions; counterexample runs for the >40 records case and num_obs |
| C12 C13 C14 | CM update function, index arithmetic, wrapper defaults, 16-bit wrap | fold invariant; arithmetic; witnesses |
| C91 | arrays of the LASSO fit and prediction, reals and binary32/64 phases | loop specifications, commutativity, witness (Fit) |
| C85 C86 C87 C88 C89 C90 | the same machine | further inductive invariants over the log, the live series, the current fit and its age (ColdProps2, ColdProps3) |
| C92 | the same machine with a kernel that refuses ill-posed windows | equality of the two runs, from the invariants (ColdProps4, ObProps2) |
| C93 | the S-CCD machine with a kernel that refuses ill-posed windows, short divisors and empty filter steps | equality of the two runs; the counter of observations bounded through every history (SccdProps4) |
| C94 | snow branch of the S-CCD machine and the update entry point | splitting lemma for the filter loop; kernel that logs the dates it takes in as witness (SccdSnow) |
| C95 | extended series, filter passes, 32-bit sum, covariance reset | loop specifications for any filter, logging filter as witness, quadratic forms over the reals (SsmInit) |
| C96 | outlier mask and robust fit, exact arithmetic, any solver | loop specifications; counting below the median; two solvers agreeing on well-posed weights (Mask); zeros of trigonometric polynomials by roots of complex polynomials (Rank) |
| C98 | land-cover maps: file names as strings, listing in any order, stages in any order | string search and decimal numerals; stable sort with distinct keys; C49, C51, C77 (Covermap) |
| C99 | classification stages as a transition system like Hpc | invariant per rank, weight of the remaining work (CoverHpc) |
| C100 | files of the object analysis: names, torn writes, markers, listing | last-separator splitting of names, number of digits; last write per file; C52 (Obia) |
| C101 C102 | decisions of the S-CCD step and look-back, judged by an independent verdict on windows | loop specifications of the window scan; invariant naming the reason of each record; run with and without option in step (SccdDecide) |
| C103 | pinpoint entries of the S-CCD step | invariant linking entries and yearly maxima; states visited by the loop (SccdPins) |
| C104 | slots read by the greening test of sccd_identify | relational medians, window lemma for eight-slot packs (Greening) |
| C105 | life of a segment as rules over plain lists: open, take, skip, close | invariant tying the indexed buffer to the rules; every removal given a reason; mutual induction for records and counters (SccdTrace) |
| C106 | coefficient maps: entry of a pixel fixed by its set of records | pick/find against order-free specification; groups of a sorted list are filters; layer numbering; C51 for the tile (CoefMap) |
| C107 C108 | Python prediction against misc.c and the filter; index image | reduction of both formulas; C45_gap and C45_prediction; shape of the raster written (PyUtils) |
| C109 | observation-to-observation filter against the textbook filter day by day | invariant tying coefficients to the state of the day; upper triangle against full matrices (KfDaily) |
| C110 | block views at byte level | buffers as byte lists, little-endian items; offset of the view as an item number (Strides) |
| C111 | explode, bbox, get_feature | mutual induction over nested positions; zip by columns (GeoBox) |
| C112 | scene dates and the range file | slices of names as substrings, splitting at dots, calendar; C73_file_names, C13_tile_covers (PrepDates) |
| C113 | S-CCD monitoring of a segment against the textbook procedure with the daily filter | simulation: coefficients and state of the day agree after each verdict; scan with early exit equals a test of all magnitudes (SccdTest) |
| C114 | rmse of the nearest observations in day of year, deviations of the newest observation | C37_quick_sort_2d gives a permutation of rows, turned into a list of positions; distance to the nearest multiple of 1461 quarter days (Season) |
| C115 | stability test, deviations from a fit and look-back over the series, both algorithms | C91_fit for every band; band-major arrays against a list of observations; induction from the latest observation backwards (StartTest) |
| C116 | the COLD state machine against a pass over lists without indices | simulation, one observation against the iterations that handle it; failure and undefined behaviour in step (ColdPass) |
| C117 C118 | COLD on an extended series, and on two series that agree from a break on | the pass on a prefix; two passes with equal states but for the records so far (ColdPast) |
| C119 | COLD on observations with dates moved and values transformed | both passes step by step; nonempty segment and window as invariants (ColdShift) |
| C120 | obcold segment loop as cutting a list | induction over the breaks; nearest date in the shrunken array is nearest in the series (ObPass) |
| C121 | obcold_reconstruct for reordered, superfluous and its own break dates | from C120; uniqueness of the sorted list, idempotence of the filter and of the cutting (ObAgain) |
| C122 | obcold segment loop on moved dates and transformed values | from C120, piece by piece (ObShift) |
| C123 | observations used by the records of obcold_reconstruct | from C120, induction over the breaks (ObCount) |
| C124 | COLD breaks given to the obcold segment loop | records of C06/C10/C90 as pieces of six dates, then C120 (ColdOb) |
| C125 | cold, then obcold_reconstruct, on the same rows | C124 through the entry points; the last record by the count of dates since the last break; C08 for conse (ColdObCall) |
| C126 | obcold_reconstruct on two series that agree from a break on | from C120; breaks in between are nearest to the first observation and skipped (ObForget) |
| C97 | modeby, object_analysis, break map over flat lists of pixels | cut positions against runs against groups of a stable sort (Objects) |
| C16 | dispatch in `cold` | case analysis over the composed model |
| C17 | normal branch of `inefficientobs_procedure` | refuted by witness |
| C18 C19 C20 | `obcold_reconstruction_procedure` | induction over break list, invariant over segments; indeterminate value as a parameter the result depends on |
| C21 C22 C23 C24 C25 C28 C29 C30 C31 C33 C35 | S-CCD state machine with oracle kernel | invariants, measure, witnesses |
| C26 C27 C32 C34 C36 | state hand-over between batches, wrapper aliasing, identify | commuting lemma where true, witnesses where false |
| C37 C38 C39 C40 C41 | library routines, concretely | loop invariants, permutation proofs |
| C42 | address arithmetic | lia/nia |
| C43 | calendar routine | induction on years, comparison with the closed-form Gregorian calendar |
| C44 | layouts computed from type descriptions of both sides under the C ABI / numpy align rules | computation, plus a general theorem on the layout function |
| C45 C46 | real-arithmetic Kalman kernel | algebra over Reals (stdlib axioms) |
| C47 | binary32 arithmetic by `SpecFloat` | witness |
| C48 | interval/type constraint checker | case analysis |
| C49–C52 | Python index arithmetic, hstack/hsplit/as_strided as list functions | div/mod lemmas, induction; witnesses for non-square grids |
| C53–C57 | ranks as processes over a shared file system, interleaving semantics with crashes | invariants over all executions, deadlock argument |
| C58 | label bookkeeping of the flood-fill loop | induction over seeds |
| C59–C64 | remaining Python functions | induction / witnesses |

Nothing in the list is known to be inexpressible; where only a part gets proved the theorem carries the suffix
`_partial` and MANIFEST.json says what is missing.

## 4. Findings

Each item is a `_refuted` theorem (or the note of a `_partial` one) with a concrete run of the model.

### COLD (src/cxx/cold.c, misc.c)
* C05 `rec_cg` belongs to numpy; closing a 40th record calls `realloc` on it.  Possible only when the series spans
  at least 39*367 days; excluded below that.
* C05/C13 With change-magnitude output on, a NaN angle makes the conversion to `int` undefined; user values of
  `n_cm`, `starting_date` and `cm_output_interval` (including 0) reach the C code unchecked and index outside
  the output.
* C47 The angle of exactly parallel deviations can be NaN in binary32 (`acosf(1 + 2^-23)`): a change with six equal
  deviations (4,4,0,0,0) is not confirmed, and its first observation is removed as an outlier.
* C11 `num_obs` of a category 14 record is one too large.  C66 `num_obs` of every OBCOLD record is one too large.
* C14 Change dates are stored as 16-bit offsets from day 723742; outside that range they decode to other days.
* C17 In the sparse procedure the green and the thermal band are fitted against dates of other observations once
  observations were removed; in the snow branch likewise after saturation.
* C65/C39/C41 variogram, nearest date and duplicate removal depend on uninitialised memory or return nonsense for
  fewer than two / no matching / no observations.
* C37/C38 sorting with NaN keys does not sort; the glmnet wrapper misplaces coefficients from the second lambda on.
* C91 (S-CCD) the semi-annual terms are fitted at a phase computed in double and predicted at one computed in float;
  around 1996 the two are up to 0.00098 rad apart.  COLD fits and predicts at the same phases.
* C92 (snow branch, Collection 1) the thermal band is fitted without a minimum number of observations: twelve snow
  observations without thermal values give a fit on the window 0..-1 (cold.c 5056).
* C42 allocation sizes overflow `int`.  C43 `convert_year_doy_to_jday_from_0000` is uninitialised for 1973.

### OBCOLD reconstruction
* C18 the one-year spacing starts from day 0, so the first break may be before the first clear observation.
* C19 more than 39 segments overrun the record buffer; a pixel whose clear rows are all out of range reads `clrx[-1]`.
* C20 the fallback branch reads `sn_pct` uninitialised.

### S-CCD (src/cxx/s_ccd.c, _colds_cython.pyx)
* C21 a failing `auto_mask`/fit in step 1 repeats the same iteration for ever.
* C22 with the default `conse` 6 two of the eight saved window slots are zero; the next update reads them as
  observations of 1982-07-16.  Breaks before the segment start, and after two updates undefined behaviour.
* C29 `conse` 7 or 8: the first record's magnitudes are read at index -1.  There is no `conse` for which both
  initialisation (at most 6) and resumption (exactly 8) are sound.
* C26 the result depends on how a series is split: the default window makes updates undefined, a split right after a
  break leaves a queue instead of a model, the noise level comes from the first call only, and after a failed
  start the next call starts over without the outliers removed meanwhile.  Splits while a pixel
  stays monitored (window 8, exact store) or still waits for observations to start with do not matter.
* C30 pinpoint output: out of bounds at the end of a series (`conse` 6), before 1981, and after forty years.
* C31 `_sccd_update` does not check `conse <= 8`.  C27 a full queue drops the newest observations.
* C28 a NaN magnitude counts as an anomaly.  C33 with one clear observation `min_rmse` is uninitialised.
* C32 `min_rmse` of the caller's pack is overwritten in mode 0.  C34 dates are not checked.
* C94 a snow model is created from all observations, but the last eight are stored as if still to come: the first
  updates take them in again.
* C95 a snow model leaves out the last observation and counts the residual before it twice.  The sum of squared
  residuals is a 32-bit number: it wraps at initialisation and is undefined while monitoring once it reaches 2^32
  (120 residuals of 0.6).  (Not stated as a theorem: the snow procedure passes the error, the standard one its square,
  as the noise variance, s_ccd.c 2822-2823 and 3263.)
* C98 block files left by an earlier, differently divided run are assembled into the land-cover map;
* C100 results of the object analysis left by an earlier run with other snapshots are read as additional breaks; after a
  resubmission the old markers release ranks that then read files being rewritten;
* C99 the forest and the yearly maps exist before they are complete, so that other ranks may read them truncated; after a resubmission ranks classify
  blocks again that are already marked as finished, while the first rank reads them or has already removed their features;
* C96 windows of up to 365 days are masked with twice the same period, so that the coefficients are not determined;
  nor are they by 12 observations at two days of every fourth year (with 2N+2 dates in N years they are);
  with six observations the robust fit discounts nothing, whatever the outlier.
* C102 with the pinpoint option on and a gate above the change threshold, breaks are missed: the scan of the window
  stops at the gate.  A NaN mean angle counts as a change in monitoring but not in the look-back (C101).
* C121 `obcold_reconstruct` called with the breaks it returned can return fewer records: dates 366 days apart are moved to
  observations less than 366 days apart, and the second call drops one.
* C125 With `conse` below 6 a break that COLD confirmed can be missing after the reconstruction although no observation is an
  outlier: four observations behind the break confirm it, but are too few for a last record, and the last record never has a break
  (`C125_small_conse_refuted`).
* C35 more than 40 records overrun `rec_cg`.  C36 `sccd_identify` reports a wrong date for `conse` 8, and raises
  for packs without model.  C104 its greening test reads slots 6-n..5: with `conse` 8 the medians end two observations
  too early, with `conse` below 6 empty slots enter them, runs longer than six raise.

### Python tools
* C50/C51 map assembly is right for square block grids only.  C54 the default rank skips the last block.
* C55 OBCOLD never ends with fewer than 16 cores (the date maps are assembled by rank 16).  C57 readers can see
  unfinished maps, and a crash leaves one for good.
* C60/C79 the last record of a block is dropped from break maps; a break's type can come from the next pixel's
  records.  C67 the export tool's type for `nrt_model` differs from the library's.
* C106 coefficient maps: one block without a record file stops them all; `Create(outfile, rows, cols)` exchanges
  the sides, so blocks that are not square raise and a non-square grid gives a wrongly shaped image in silence;
  `--coefs` as documented ("a0, c1, ...") fails an assertion because blanks are not stripped.
* C108 `generate_rowcolimage` creates its raster with the sides exchanged: only square images can be indexed.
* C110 the byte strides of the block views come from the configuration: an image of another width is cut wrongly, a
  smaller one is read past its end (Collection 2 scenes are warped to a window of their own size).  The stand-in for
  the thermal band of HLS has 64-bit items but 16-bit strides; it is only right because it is zero.
* C111 features whose positions all have a height make `bbox` raise.
* C112 preparing again with a narrower range leaves the older block files: the detection then indexes the change
  magnitude output with a negative number.  A range without scenes gives a number of maps that is not positive.
* C64/C81 the `RuntimeError` handler itself raises.  C59 training fails when label 0 occurs but class 8 does not.
* C68 some parameters are not range-checked.  C70/C71/C72 QA fill priority, exchanged scale factors of two
  Collection 2 bands, and dropped cloudy images change results.  C74/C75/C78/C82 see MANIFEST.json.

Observed while reading, not stated as theorems: off-diagonal covariances are not reset at a new S-CCD segment
(s_ccd.c 456-466); the snow model initialises its noise with the RMSE where the standard one uses its square;
`constants.yaml` has DEFAULT_CONSE 6 while `common.py` has 8.

## 5. Coverage: code modelled / not modelled

| source | model |
|--------|-------|
| src/cxx/cold.c `cold`, `preprocessing`, `stand_procedure`, `inefficientobs_procedure` | FrontModel, ColdModel (numerical routines are arbitrary functions; further properties in ColdProps, ColdProps2, ColdProps3, ColdProps4) |
| src/cxx/cold.c `obcold_reconstruction_procedure` | ObModel (ObProps, ObProps2) |
| src/cxx/s_ccd.c `sccd`, `sccd_standard`, `sccd_snow`, step 1, step 2, saving of model/queue | SccdModel (life of a segment in SccdTrace; resumption and splitting in SccdResume, SccdProps3, SccdStart, SccdSplitEx; well-posed calls in SccdProps4; snow updates in SccdSnow; reasons of breaks in SccdDecide; pinpoint entries in SccdPins) |
| src/cxx/s_ccd.c `step1_ssm_initialize`, sum of squares | SsmInit (any filter; exact residuals; reals for the covariance) |
| src/cxx/KFAS.c filter steps, coefficient/state conversion, constants; s_ccd.c `KF_ts_filter_regular`, `KF_ts_filter_falsechange` | Kalman, KfDaily (exact arithmetic) |
| src/cxx/s_ccd.c step 2 as a whole, `KF_ts_predict_conse` (b_foutput FALSE, as in every call) | SccdTest (exact arithmetic) |
| src/cxx/cold.c 4118-4245 (seasonal rmse, newest deviation), `matlab_2d_array_norm_float` | Season (exact arithmetic but for the quotient) |
| src/cxx/cold.c 3252-3346, 3434-3652, 3943-3982; src/cxx/s_ccd.c 990-1057, 1135-1274 | StartTest (exact arithmetic) |
| src/cxx/misc.c sorting, medians, nearest date, unique, variogram, angle, `update_cft` | SortModel, LibModel, Angle |
| src/cxx/misc.c `auto_ts_fit_float`, `auto_ts_fit_sccd`, `auto_ts_predict_float` | Fit (exact arithmetic; phases in floating point) |
| src/cxx/misc.c `auto_mask`, `auto_robust_fit`; src/cxx/multirobust.c | Mask, Rank (exact arithmetic; statistics after the loop left out) |
| src/cxx/2d_array.c, multirobust allocation arithmetic | LibModel |
| src/cxx/utilities.c calendar, `angle_decaying` | Calendar, Angle |
| src/cxx/output.h and numpy dtypes | Layout |
| _colds_cython.pyx entry points, packs | FrontModel, ObModel, SccdApi, Classify |
| colds.py validation, `calculate_sccd_cm`, pyclassifier features, samples and maps | Validate, Greening, Classify, Covermap, CoverHpc |
| ob_analyst.py, imagetool (tile processing, stack preparation, export) | PyIndex, FloatIndex, Prepare, Strides, GeoBox, PrepDates, Sched, Hpc, Segment, Objects, Obia, Export, CoefMap, Tile |
| utils.py `coefficient_matrix`, `predict_ref`, `generate_rowcolimage` | PyUtils |

Not modelled: glmnet (Fortran), the L-BFGS parameter search of KFAS.c, GSL, `cold_norecoverybreak.c`
and the legacy procedures of cold.c that no entry point reaches, GDAL/rasterio input and output, plotting, the QGIS
and command-line front ends beyond their loops, random forests.

## 6. Assumptions printed

`Print Assumptions` gives "Closed under the global context" for every theorem of MANIFEST.json except

| theorems | stdlib axioms |
|----------|---------------|
| C45_*, C46_*, C83_*, C84_*, C91_fit, C91_more_terms, C95_reset, C95_first, C96_* but C96_year, C107_*, C109_*, C113_forecast, C113_statistic, C113_rmse, C113_end, C114_*, C115_stability, C115_deviation | `ClassicalDedekindReals.sig_forall_dec`, `sig_not_dec`, `functional_extensionality_dep` (Reals) |
| C47_exact, C47_mean, C113_monitor, C113_unique, C113_sum, C115_verdict, C115_look_back, C115_unique | the same and `Classical_Prop.classic` (Ratan) |
| C49_float_*, C53_float_ceil | the same (Flocq's reals) |

No axiom is declared in this development.  `coqchk -o` also lists the module items of `Coq.ssr.ssrunder` and
`Coq.Reals.Rdefinitions`, which are loaded by the libraries and used by no theorem other than those above.
