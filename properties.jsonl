{"id": "C01", "title": "Design constructor accepts exactly the valid designs", "statement": "ExperimentDesign(...) returns a design if and only if the documented constraints hold (positive runtime, non-negative pretest, percentiles in range, no pre-trimming without pretest weeks, crossover constraints, more than 50 items left after all trimming); otherwise it raises and no design object is produced.", "quantifier": "every combination of integer weeks, item counts, binary64 percentiles (including NaN and infinities), crossover flag and optional washout", "why_tests_cant": "the parameter space is infinite (all doubles, all integers) and the accept/reject boundary is a conjunction of ten conditions; tests sample a handful", "anchors": ["feedx/experiment_design.py:ExperimentDesign.__post_init__", "feedx/experiment_design.py:ExperimentDesign._validate_design"]}
{"id": "C02", "title": "Derived item counts of a design", "statement": "For every accepted design, the number of items after pre-trimming is the number before minus the two floored (binary64) products, after post-trimming it is that minus twice the floored product, 50 < post <= pre <= before, and each number of trimmed items is the floor or the ceiling of the exact real product.", "quantifier": "every accepted design with fewer than 2^53 items", "why_tests_cant": "depends on floating point rounding of percentile*n for all doubles and all n", "anchors": ["feedx/experiment_design.py:ExperimentDesign.__post_init__"]}
{"id": "C03", "title": "YAML write/load round trip", "statement": "Writing any constructed design (also after a coinflip salt has been stored on it) with write_to_yaml and loading that path with load_from_yaml returns an equal design; a later write to the same path wins, writes to other paths do not matter; loading a path never written fails.", "quantifier": "every constructed design, every salt, every sequence of writes to a file store", "why_tests_cant": "quantifies over all designs and all histories of writes", "anchors": ["feedx/experiment_design.py:ExperimentDesign.write_to_yaml", "feedx/experiment_design.py:ExperimentDesign.load_from_yaml"]}
{"id": "C04", "title": "YAML load rejects inconsistent documents", "statement": "load_from_yaml returns a design only when the document holds both item counts, has no unknown and no missing required key, the parameters are themselves valid, and both stored counts equal the recomputed ones; any document with a tampered count is rejected.", "quantifier": "every YAML document (key/value mapping)", "why_tests_cant": "all possible documents, not only the few tampered files tests write", "anchors": ["feedx/experiment_design.py:ExperimentDesign.load_from_yaml"]}
{"id": "C05", "title": "design_id ignores the coinflip salt and nothing else", "statement": "Two designs that differ only in coinflip_salt have the same design_id; two designs that differ in any other parameter are hashed from different texts, so equal ids imply equal parameters or an MD5 collision; design_id never fails on a constructed design. The text shown for a design (repr) determines all of it, the salt included.", "quantifier": "every pair of constructed designs, every salt", "why_tests_cant": "pairs of designs form an infinite space; injectivity of the hashed text is a for-all statement", "anchors": ["feedx/experiment_design.py:ExperimentDesign.design_id"]}
{"id": "C06", "title": "Coinflip is a deterministic 0/1 function of salt and item id", "statement": "Coinflip(salt)(item_id) is always 0 or 1, equals the parity of the MD5 digest of the UTF-8 bytes of salt followed by str(item_id), and so gives the same arm for the same salt and id in every run; an empty salt is rejected and a random salt of positive length is accepted.", "quantifier": "every salt and every item id string", "why_tests_cant": "all byte strings; stability over time cannot be tested exhaustively", "anchors": ["feedx/experiment_design.py:Coinflip.__init__", "feedx/experiment_design.py:Coinflip.__call__", "feedx/experiment_design.py:Coinflip.with_random_salt"]}
{"id": "C07", "title": "Printed washout weeks match the analysed washout weeks", "statement": "For every valid crossover design, the (1-based) washout week numbers printed by str(design) are exactly the runtime weeks that add_time_period_column labels washout_1 or washout_2, and the printed swap week is the first week of the second half.", "quantifier": "every valid crossover design and every start week", "why_tests_cant": "two independently written computations must agree for all runtimes and washouts", "anchors": ["feedx/experiment_design.py:ExperimentDesign.__str__", "feedx/experiment_analysis.py:_add_time_period_column_for_crossover_experiment"]}
{"id": "C08", "title": "Design enumeration is sound, complete and ordered", "statement": "When it returns, generate_all_valid_designs returns for every candidate combination (in product order, last candidate varying fastest) not asking for pre-trimming without pretest weeks: the traditional design if allowed, followed by the crossover design if allowed and the runtime is even and longer than twice the washout; nothing else, and every returned design is valid.", "quantifier": "all candidate lists of any length and all flags", "why_tests_cant": "unbounded candidate lists; a dropped or duplicated combination only shows for particular lists", "anchors": ["feedx/experiment_simulations.py:generate_all_valid_designs"]}
{"id": "C09", "title": "Crossover-free enumeration and the omitted washout", "statement": "generate_all_valid_designs with crossover not allowed does not need crossover_washout_weeks: the result does not depend on its value when one is given. With the documented default None the code raises TypeError as soon as one combination reaches the crossover test (violation of the documented contract, refuted with a witness and proved for every input).", "quantifier": "all candidate lists; washout given or omitted", "why_tests_cant": "the failing path is an argument default that the tests never leave unset; the independence claim ranges over all washout values", "anchors": ["feedx/experiment_simulations.py:generate_all_valid_designs"]}
{"id": "C10", "title": "One invalid candidate aborts the enumeration", "statement": "generate_all_valid_designs returns a list if and only if every design it would construct is valid; a single invalid combination makes the whole call raise (the docstring's 'generate all valid combinations' by filtering is refuted by a witness).", "quantifier": "all candidate lists", "why_tests_cant": "the claim is about every combination in every candidate grid", "anchors": ["feedx/experiment_simulations.py:generate_all_valid_designs"]}
{"id": "C11", "title": "Minimum start week leaves room for every candidate", "statement": "calculate_minimum_start_week_id returns s only if the historical range is long enough, and then for every candidate pretest length p and runtime r, weeks s-p .. s+r-1 lie inside the historical weeks, s is the least such start for the largest pretest; otherwise (or on an empty collection) it raises.", "quantifier": "all non-empty candidate collections and historical week id collections", "why_tests_cant": "unbounded collections of integers", "anchors": ["feedx/experiment_simulations.py:calculate_minimum_start_week_id"]}
{"id": "C12", "title": "Regular experiment time periods", "statement": "add_time_period_column labels, for a regular design, a week 'pretest' iff it is one of the pretest_weeks weeks immediately before the start week, 'test' iff it is one of the runtime_weeks weeks from the start week, None otherwise; no week carries both meanings; all other columns are untouched and a pre-existing period column or missing week column is rejected.", "quantifier": "every week id, start week and regular design", "why_tests_cant": "boundary weeks for all integer parameters", "anchors": ["feedx/experiment_analysis.py:get_weeks_between", "feedx/experiment_analysis.py:add_time_period_column", "feedx/experiment_analysis.py:_add_time_period_column_for_regular_experiment"]}
{"id": "C13", "title": "Crossover time periods partition the runtime", "statement": "For a valid crossover design the runtime weeks are split, in order, into washout_1 (washout weeks), test_1, washout_2 (washout weeks), test_2, with both test periods having runtime/2 - washout >= 1 weeks, no gap, no overlap, pretest immediately before and None outside.", "quantifier": "every week id, start week and valid crossover design", "why_tests_cant": "arithmetic of four adjacent integer intervals for all parameters", "anchors": ["feedx/experiment_analysis.py:_add_time_period_column_for_crossover_experiment"]}
{"id": "C14", "title": "Pivoted values are weekly averages per item and period", "statement": "pivot_time_assignment returns one row per item (or per item and arm) that has data in a labelled week, a column per metric and period present in the data, and each value is the sum of that item's metric over the weeks of that period divided by the number of weeks of the period; rows outside all periods contribute nothing. The rows are read from the cells of the data in order: integers and numbers as they are, a missing metric as NaN, and rows without an item (or arm) are left out; the rows of the result are sorted by item and, for the same item, by arm.", "quantifier": "every data set, metric list, design and start week", "why_tests_cant": "all data sets of any size", "anchors": ["feedx/experiment_analysis.py:pivot_time_assignment", "feedx/experiment_analysis.py:_pivot_regular_time_assignment", "feedx/experiment_analysis.py:_pivot_crossover_time_assignment"]}
{"id": "C15", "title": "Pivoting leaves the caller's data unchanged, unless it fails", "statement": "A successful pivot_time_assignment leaves the passed data frame with exactly its original columns and rows, so any sequence of successful calls behaves like independent calls. If a regular pivot fails because no week is in the test period, the helper column stays behind and every later call on that frame is rejected (atomicity refuted).", "quantifier": "every data set, design and history of calls on one frame", "why_tests_cant": "history property: depends on the sequence of calls and on a mid-function exception", "anchors": ["feedx/experiment_analysis.py:_pivot_regular_time_assignment", "feedx/experiment_analysis.py:pivot_time_assignment"]}
{"id": "C16", "title": "Plotted crossover spans match the labelled periods", "statement": "plot_metric_over_time shades exactly the dates that are labelled washout, draws the crossover line on the first day of the second half, and the x range covers exactly pretest plus runtime.", "quantifier": "every valid crossover design and start date", "why_tests_cant": "agreement of two separately coded computations for all parameters", "anchors": ["feedx/plotting.py:plot_metric_over_time", "feedx/experiment_analysis.py:_add_time_period_column_for_crossover_experiment"]}
{"id": "C17", "title": "Week ids and week starts", "statement": "add_week_id_and_week_start gives each row the unique integer k with start + 7k days <= date < start + 7(k+1) days (also for dates before the start and with a time of day) and week_start = start + 7k days; without a start date the earliest date is used, so ids are non-negative and 0 occurs.", "quantifier": "every timestamp (nanosecond resolution) and start date, before or after", "why_tests_cant": "floor division on negative offsets and times of day; all timestamps", "anchors": ["feedx/data_preparation.py:add_week_id_and_week_start"]}
{"id": "C18", "title": "Weekly grouping conserves complete weeks exactly", "statement": "For daily data, group_data_to_complete_weeks returns exactly one row per (week, item, extra groups) that has seven distinct dates, each metric being the sum of that group's daily values; groups with fewer days are dropped; for weekly data rows are returned unchanged except for the date column.", "quantifier": "every daily or weekly data set", "why_tests_cant": "all data sets; conservation of totals over arbitrary groups", "anchors": ["feedx/data_preparation.py:group_data_to_complete_weeks"]}
{"id": "C19", "title": "Frequency detection", "statement": "group_data_to_complete_weeks raises iff the distinct sorted dates are neither all one day apart nor all seven days apart; data with a single distinct date is treated as daily, so a single week of weekly data comes back empty (refutes 'if weekly data is provided, no grouping will be done').", "quantifier": "every multiset of dates", "why_tests_cant": "all date sets including singletons", "anchors": ["feedx/data_preparation.py:group_data_to_complete_weeks"]}
{"id": "C20", "title": "Filling missing rows completes the grid", "statement": "fill_missing_rows_with_zeros returns data in which every observed item occurs with every observed date; rows present in the input are kept with their multiplicity (missing metric values replaced by 0), rows that were absent appear exactly once with all metrics 0, and no other item or date appears; if the input has no duplicate (item,date) the output has exactly items x dates rows.", "quantifier": "every data set with item and date columns", "why_tests_cant": "all data sets; multiplicities", "anchors": ["feedx/data_preparation.py:fill_missing_rows_with_zeros"]}
{"id": "C21", "title": "Filling is idempotent and keeps totals", "statement": "Filling already filled data returns exactly the same rows in the same order, and the total of every metric is unchanged by filling.", "quantifier": "every data set", "why_tests_cant": "algebraic law over all inputs", "anchors": ["feedx/data_preparation.py:fill_missing_rows_with_zeros"]}
{"id": "C22", "title": "Downsampling keeps whole items", "statement": "downsample_items rejects fractions outside (0,1] and unknown id columns, returns the data unchanged for fraction 1, and otherwise keeps, in the original order, all rows of a subset of round(fraction*n) distinct items and no row of any other item.", "quantifier": "every data set, fraction and random draw", "why_tests_cant": "quantifies over the random sample as well as the data", "anchors": ["feedx/data_preparation.py:downsample_items"]}
{"id": "C23", "title": "Column standardization", "statement": "standardize_column_names_and_types returns exactly the requested columns under their standard names in the standard order, each parsed from its own input column (also when input names permute the standard names), provided distinct standard names use distinct input columns; it raises when a custom column shadows a standard one, a custom parser has no column, or an input column is missing.", "quantifier": "every assignment of input columns and custom columns", "why_tests_cant": "all name mappings including permutations; aliasing", "anchors": ["feedx/data_preparation.py:standardize_column_names_and_types"]}
{"id": "C24", "title": "Skipping a validation check affects only that check", "statement": "A wrapped check raises iff it fails and its name is not in skip_validation_checks; naming an unregistered check in skip_validation_checks is rejected before any check runs; skipping one check never changes the outcome of another. The names that may be skipped are the twelve names of the checks in the code. An exception raised inside a check (missing column, empty salt, no rows) is not covered by skipping it.", "quantifier": "every check outcome and every skip list", "why_tests_cant": "all skip lists and all combinations of failing checks", "anchors": ["feedx/data_preparation.py:ValidationChecks.add_check", "feedx/data_preparation.py:ValidationChecks.assert_check_exists"]}
{"id": "C25", "title": "Duplicate / missing row check", "statement": "The no_duplicate_items_per_date check passes on non-empty data iff no item is repeated within a date and every date has the same number of rows. This implies 'every item exactly once on every date' when the set of items on each date is the same, but not in general: two dates with different items of equal number pass (refuted with a witness).", "quantifier": "every non-empty data set", "why_tests_cant": "all data sets; the counterexample family is not in the tests", "anchors": ["feedx/data_preparation.py:_validate_every_item_exists_exactly_once_for_every_date"]}
{"id": "C26", "title": "Date spacing check", "statement": "The dates_are_daily_or_weekly check passes iff all consecutive distinct dates are a whole-day-floored gap of 7, or all of 1, and for midnight dates this means the dates form a complete daily or complete weekly arithmetic progression.", "quantifier": "every multiset of dates", "why_tests_cant": "all date sets", "anchors": ["feedx/data_preparation.py:_validate_dates_are_either_daily_or_weekly"]}
{"id": "C27", "title": "Week id consecutiveness check", "statement": "If the week id check passes then the week ids occurring in the data form an interval of integers and never decrease over time; ids produced by add_week_id_and_week_start from gap-free dates always pass.", "quantifier": "every data set of (week id, date) pairs and every order in which equal dates are sorted", "why_tests_cant": "all data; unstable sort order", "anchors": ["feedx/data_preparation.py:_validate_week_ids_are_consecutive_integers"]}
{"id": "C28", "title": "Null, finiteness and sign checks", "statement": "no_nulls passes iff no cell is missing; all_metrics_are_finite passes iff no listed metric has NaN or infinite values; all_metrics_are_non_negative passes iff no listed metric has a negative value (NaN is not negative); together they imply every listed metric is a finite number >= 0.", "quantifier": "every data set and metric list", "why_tests_cant": "all data", "anchors": ["feedx/data_preparation.py:_validate_no_null_values", "feedx/data_preparation.py:_validate_all_metrics_are_finite", "feedx/data_preparation.py:_validate_all_metrics_are_non_negative"]}
{"id": "C29", "title": "Design date-range check", "statement": "experiment_dates_match_design passes iff the earliest date is on or before start - 7*pretest_weeks days and (if concluded) the latest date is on or after the first day of the last runtime week; a concluded daily data set that misses the last six days passes (refutes 'latest date required by the design').", "quantifier": "every data set, design, start date", "why_tests_cant": "boundary dates for all designs", "anchors": ["feedx/data_preparation.py:_validate_experiment_dates_match_design"]}
{"id": "C30", "title": "Item-count, arm-uniqueness and coinflip checks", "statement": "number_of_items passes iff the number of distinct items equals the design's n_items_after_pre_trim; treatment_assignment_is_unique passes iff every item has exactly one arm; coinflip_salt_validation passes iff every row's arm equals Coinflip(design.coinflip_salt)(item); the last implies the arm is unique per item.", "quantifier": "every data set and design", "why_tests_cant": "all data", "anchors": ["feedx/data_preparation.py:_validate_number_of_items_matches_design", "feedx/data_preparation.py:_validate_treatment_assignment_is_unique_for_each_item_id", "feedx/data_preparation.py:_validate_coinflip_matches_assignments"]}
{"id": "C31", "title": "Sample ratio check counts distinct items per arm", "statement": "validate_no_sample_ratio_mismatch tests the number of distinct items in arm 1 against the number of distinct items in arms 0 and 1, fails iff the binomial p-value is below the threshold; duplicating rows or adding dates does not change its verdict.", "quantifier": "every data set and threshold, any binomial test function", "why_tests_cant": "invariance over all data duplications", "anchors": ["feedx/data_preparation.py:validate_no_sample_ratio_mismatch"]}
{"id": "C32", "title": "Validation entry points are the conjunction of their checks", "statement": "validate_historical_data (validate_experiment_data) returns normally iff every skip name is registered and each of its checks in the documented list passes or is skipped; otherwise it raises the first failing unskipped check in the code's order (for non-empty data with the metric columns present, a salt on the design and one week id per date). Skipping every check does not make the call succeed: a design without salt still raises (refuted with a witness).", "quantifier": "every data set, design, skip list", "why_tests_cant": "2^k combinations of failing checks times all data", "anchors": ["feedx/data_preparation.py:validate_historical_data", "feedx/data_preparation.py:validate_experiment_data"]}
{"id": "C33", "title": "At-least-one metrics", "statement": "add_at_least_one_metrics sets each new column to 1 exactly where the source metric is > 0 and to 0 elsewhere (NaN included), in mapping order, changing no other column when the new names are fresh.", "quantifier": "every data set and mapping", "why_tests_cant": "all values and mappings", "anchors": ["feedx/data_preparation.py:add_at_least_one_metrics"]}
{"id": "C34", "title": "Prepared historical data is a complete weekly grid", "statement": "prepare_and_validate_historical_data, when it returns for daily input, returns one row per kept item and per complete week, the primary metric being the total of all raw rows of that item in that week with missing days counted as 0, weeks aligned to the earliest date; weekly input is passed through with zeros for absent pairs. Duplicated raw rows of daily data are added up instead of rejected (refuted variant).", "quantifier": "every raw data set, fraction and random draw", "why_tests_cant": "end-to-end composition over all data", "anchors": ["feedx/data_preparation.py:prepare_and_validate_historical_data"]}
{"id": "C35", "title": "Prepared experiment data covers exactly the assigned items", "statement": "prepare_and_validate_experiment_data, when it returns with the duplicate check active, returns exactly one row per assigned item and observed date: items only in the performance data are dropped, assigned items without performance get zeros, every row has the period label of its week counted from the start date and the arm from the assignment.", "quantifier": "every performance data set, assignment and design", "why_tests_cant": "end-to-end composition over all data", "anchors": ["feedx/data_preparation.py:prepare_and_validate_experiment_data"]}
{"id": "C36", "title": "Outlier trimming removes exactly the extremes", "statement": "For values that are all present (infinite ones included), trim_outliers returns a sub-sequence of the rows in the original order, of size n - floor(n*top) - floor(n*bottom) (binary64 products); the removed rows split into floor(n*top) rows not below any kept row and floor(n*bottom) rows not above any kept row, for every random tie-break; the kept values do not depend on the tie-break; it returns exactly for finite non-negative percentiles whose binary64 sum is below 1; with nothing to trim the data is returned as is. Refuted: the size is the same with missing values; some row is always kept.", "quantifier": "every data set, percentiles, random tie-break", "why_tests_cant": "quantifies over the random order of ties and all data", "anchors": ["feedx/data_preparation.py:trim_outliers"]}
{"id": "C37", "title": "Treatment assignment covers the trimmed items once", "statement": "perform_treatment_assignment returns each experiment item exactly once (all items without pre-trimming; with pre-trimming the items left after trimming the totals over the last pretest_weeks weeks), its arm being Coinflip(salt)(item); the salt used is the design's salt, or a fresh one stored on the design, so that a second call on the same design reproduces the same arms. With the columns present and a random salt that is not empty the call fails only on a sample ratio mismatch; refuted: a failed call leaves the design unchanged (the fresh salt stays on it).", "quantifier": "every historical data set, design (with or without salt), tie-break and random salt", "why_tests_cant": "history property (salt persisted) over all data", "anchors": ["feedx/data_preparation.py:perform_treatment_assignment"]}
{"id": "C38", "title": "Assignment then validation agree", "statement": "Items assigned by perform_treatment_assignment and merged back by item id pass the coinflip, arm-uniqueness, sample ratio and item-count checks of validate_experiment_data for the same design whenever the historical data had n_items_before_trimming items, no infinite values and, with pre-trimming, every item in the last pretest_weeks weeks, including after writing and re-loading the design as YAML. Refuted: without the last condition the item count still matches.", "quantifier": "every data set and design", "why_tests_cant": "cross-module invariant over all data and histories", "anchors": ["feedx/data_preparation.py:perform_treatment_assignment", "feedx/data_preparation.py:validate_experiment_data", "feedx/experiment_design.py:ExperimentDesign.load_from_yaml"]}
{"id": "C39", "title": "Lognormal sampler has the requested moments", "statement": "The parameters handed to the lognormal generator give a distribution whose mean and standard deviation are exactly the requested ones, for all positive means and deviations; others are rejected.", "quantifier": "all positive real means and standard deviations", "why_tests_cant": "statistical tests cannot establish an exact identity for all parameters", "anchors": ["feedx/data_preparation.py:_sample_from_lognormal"]}
{"id": "C40", "title": "Beta sampler: mean is right, standard deviation is not", "statement": "The parameters handed to the beta generator always give the requested mean; they give the requested standard deviation only if (mean*(1-mean)/sd^2 - 1) equals sqrt(mean*(1-mean))/sd (refuted in general by a witness).", "quantifier": "all means and standard deviations in (0,1)", "why_tests_cant": "needs the exact distribution, not samples", "anchors": ["feedx/data_preparation.py:_sample_from_beta"]}
{"id": "C41", "title": "Synthetic data frame", "statement": "generate_synthetic_data returns exactly one row per (item, day) for n_items items and each of the 7*(before+after) consecutive days from start-7*before to start+7*after-1, with 0 <= conversions <= clicks <= impressions and zero cost / value where clicks / conversions are zero.", "quantifier": "all sizes and all random draws", "why_tests_cant": "all random draws and sizes", "anchors": ["feedx/data_preparation.py:generate_synthetic_data"]}
{"id": "C42", "title": "Demo effects touch exactly the treated cells", "statement": "add_relative_effects_to_synthetic_data_for_demo multiplies each metric by (1+effect) exactly on rows where the item is treated in that period (arms swapped in the second half of a crossover, washout included), and leaves all other rows, columns and zeros unchanged; a crossover data set without any row of the first test period is taken for a regular experiment, so its treated washout rows get no effect (refuted with a witness).", "quantifier": "every data set, effects", "why_tests_cant": "all data sets and label patterns", "anchors": ["feedx/data_preparation.py:add_relative_effects_to_synthetic_data_for_demo"]}
{"id": "C43", "title": "Trimmed array size", "statement": "TrimmedArray(values, q) accepts exactly 0 <= q < 0.5; with n samples it trims k = floor(q*n) (binary64) on each side, 2k < n, so at least one sample remains and the internal length assertion never fires; k equals the design's post-trim count for the same n.", "quantifier": "every binary64 quantile and every sample size up to 2^53", "why_tests_cant": "all doubles and sizes, including rounding at the boundary", "anchors": ["feedx/statistics.py:TrimmedArray.__init__", "feedx/statistics.py:TrimmedArray.n_trim", "feedx/statistics.py:TrimmedArray.values_trimmed"]}
{"id": "C44", "title": "Trimmed array keeps the middle order statistics", "statement": "The kept samples are in the original order; as a multiset, the first row keeps exactly the order statistics k+1..n-k; every row keeps the same columns; the kept first row and hence its mean do not depend on how argsort breaks ties.", "quantifier": "every array, quantile and sort implementation", "why_tests_cant": "quantifies over every valid argsort result", "anchors": ["feedx/statistics.py:TrimmedArray.values_trimmed", "feedx/statistics.py:TrimmedArray.mean"]}
{"id": "C45", "title": "Winsorized moments", "statement": "winsorized_mean of the first row is the ordinary mean of the values clipped to the smallest and largest kept value, and var(ddof) is the sum of squared deviations of the clipped values divided by (kept - ddof).", "quantifier": "every array and quantile", "why_tests_cant": "identity over all arrays", "anchors": ["feedx/statistics.py:TrimmedArray.winsorized_mean", "feedx/statistics.py:TrimmedArray.cov", "feedx/statistics.py:TrimmedArray.var"]}
{"id": "C46", "title": "Winsorized covariance is a covariance matrix", "statement": "cov is symmetric, positive semidefinite and bilinear in the rows; the diagonal is var; the variance of a difference of rows is var1+var2-2cov; with nothing trimmed mean and cov are the ordinary sample mean and covariance.", "quantifier": "every 2-d array, quantile, ddof", "why_tests_cant": "algebraic identities over all arrays", "anchors": ["feedx/statistics.py:TrimmedArray.cov", "feedx/statistics.py:TrimmedArray.var", "feedx/statistics.py:TrimmedArray.mean"]}
{"id": "C47", "title": "Reordering, shifting and scaling samples", "statement": "For one-dimensional data, the trimmed mean, winsorized mean and variance do not depend on the order of the samples; shifting by c shifts the means by c and leaves the variance; scaling by a scales the means by a and the variance by a^2.", "quantifier": "every array, permutation, shift and scale", "why_tests_cant": "metamorphic laws over all inputs", "anchors": ["feedx/statistics.py:TrimmedArray"]}
{"id": "C48", "title": "CUPED without trimming", "statement": "With nothing to trim, the adjusted metric has the same mean, zero covariance with the covariate and variance var(metric)*(1-corr^2) <= var(metric); when the covariate is constant (or there is one sample) every adjusted value is NaN (refutes 'the mean is unchanged' for constant covariates).", "quantifier": "every metric/covariate pair of equal length", "why_tests_cant": "algebraic identity over all arrays and the degenerate case", "anchors": ["feedx/statistics.py:apply_cuped_adjustment"]}
{"id": "C49", "title": "CUPED with trimming never hurts", "statement": "When samples are trimmed, the returned array has the same trimmed mean as the metric and its trimmed variance is at most that of the metric (strictly smaller, or the metric itself is returned), also when the covariate is constant.", "quantifier": "every metric/covariate pair, quantile and sort implementation", "why_tests_cant": "for-all statement over data with a data-dependent branch", "anchors": ["feedx/statistics.py:apply_cuped_adjustment"]}
{"id": "C50", "title": "P-values are coherent", "statement": "ttest_from_stats returns point/se and a p-value in [0,1]; two-sided is invariant under sign, equals twice the smaller one-sided value; 'less' and 'greater' add to 1 and swap under sign; other alternatives raise. Without a standard error the statistic is infinite with the sign of the estimate, the two-sided p-value 0 and the one-sided ones 0 and 1, or everything NaN for the estimate 0; without positive or infinite degrees of freedom the p-value is NaN.", "quantifier": "every estimate, positive standard error, degrees of freedom", "why_tests_cant": "all reals", "anchors": ["feedx/statistics.py:ttest_from_stats"]}
{"id": "C51", "title": "Significance agrees with the absolute confidence interval (independent test)", "statement": "For yuens_t_test_ind with 0<alpha<1 and positive standard error, is_significant iff p < alpha iff 0 is strictly outside the returned absolute confidence interval, for each alternative; the point estimate lies in the interval for alpha below 1 (two-sided) or alpha <= 1/2 (one-sided). At the level 0 the intervals are the whole line, at 1 the two-sided one is the estimate alone and the one-sided ones are empty, at 2 the two-sided one is turned round and beyond that NaN.", "quantifier": "every pair of samples, quantile, alternative, alpha", "why_tests_cant": "duality of two code paths for all data", "anchors": ["feedx/statistics.py:yuens_t_test_ind", "feedx/statistics.py:absolute_difference_confidence_interval", "feedx/statistics.py:ttest_from_stats"]}
{"id": "C52", "title": "Significance agrees with the absolute confidence interval (paired test)", "statement": "For yuens_t_test_paired the standard error used by the t-test equals the one rebuilt from the two standard errors and their correlation, so is_significant iff 0 is strictly outside the absolute confidence interval; holds for plain and ratio metrics whenever the bounds are numbers or infinite, and without trimming whenever both samples and their difference vary. A constant sample gives NaN bounds, so that a significant result need not have an interval that excludes 0 (refuted with a witness).", "quantifier": "every pair of paired samples, quantile, alternative, alpha", "why_tests_cant": "identity between two computations of the same quantity for all data", "anchors": ["feedx/statistics.py:yuens_t_test_paired", "feedx/statistics.py:absolute_difference_confidence_interval"]}
{"id": "C53", "title": "Swapping the two samples", "statement": "Swapping the arguments of the t-tests, and the one-sided alternatives with them, negates the difference and the statistic, negates and swaps the absolute confidence bounds, keeps standard error, degrees of freedom, p-value, significance and sample size; for the independent test with plain and ratio metrics and any values, for the paired test with plain metrics, the bounds there where none is NaN.", "quantifier": "every pair of samples", "why_tests_cant": "metamorphic law over all inputs", "anchors": ["feedx/statistics.py:yuens_t_test_ind", "feedx/statistics.py:yuens_t_test_paired"]}
{"id": "C54", "title": "Changing the unit of the metric", "statement": "Multiplying both samples of a plain metric by c>0 keeps statistic, p-value, degrees of freedom and significance, and multiplies difference, standard error and absolute bounds by c, the bounds of the paired test where none is NaN; the independent test also keeps the relative difference and returns a result again.", "quantifier": "every pair of samples and scale", "why_tests_cant": "metamorphic law over all inputs", "anchors": ["feedx/statistics.py:yuens_t_test_ind"]}
{"id": "C55", "title": "Degrees of freedom", "statement": "With equal_var the degrees of freedom are n1+n2-2; otherwise the Welch value lies between min(n1,n2)-1 and n1+n2-2; standard error squared is the sum of the two squared standard errors in both cases; the paired value is n-1.", "quantifier": "every sample sizes >= 2 and non-negative, not both zero, standard deviations", "why_tests_cant": "inequality over all reals", "anchors": ["feedx/statistics.py:_two_sample_degrees_of_freedom", "feedx/statistics.py:_two_sample_standard_errors", "feedx/statistics.py:_one_sample_degrees_of_freedom"]}
{"id": "C56", "title": "Relative confidence interval is Fieller's set in the bounded case", "statement": "When the control mean is significantly above zero (t_exclusive > t^2) and the variances are not numerically zero, the two-sided relative interval is exactly the set of relative lifts r >= -1 with (m1-(1+r)m2)^2 <= t^2 Var(m1-(1+r)m2); it contains the point estimate, and it excludes 0 iff the absolute interval excludes 0.", "quantifier": "all means >= 0, standard errors, correlations |corr|<1, critical values", "why_tests_cant": "equivalence of sets over all reals", "anchors": ["feedx/statistics.py:relative_difference_confidence_interval"]}
{"id": "C57", "title": "Relative confidence interval in the unbounded cases", "statement": "The lower bound is never below -1; the upper bound is never below the lower when the second variance exceeds the 1e-8 closeness threshold or the interval is bounded (refuted with a witness for tiny variances); away from the threshold t^2 v2 = m2^2 (where the lower bound is NaN, refuted with a witness) and for uncorrelated samples, or more generally t^2 v12 <= m1 m2, the two-sided interval is exactly Fieller's set, bounded or not, and contains the point estimate. For positively correlated samples it may not: with a noisy control mean the interval can lie entirely above 0 although the estimate is -90% and significant (refuted with a witness).", "quantifier": "all means >= 0, standard errors, correlations, critical values", "why_tests_cant": "branch-dependent inequality over all reals; witness not in tests", "anchors": ["feedx/statistics.py:relative_difference_confidence_interval"]}
{"id": "C58", "title": "Relative interval depends on the metric's unit for tiny variances", "statement": "Scaling both means and standard errors by c > 0 leaves the relative interval unchanged as long as no variance crosses the 1e-8 closeness threshold; across the threshold it is not invariant: a metric measured in a larger unit can turn an unbounded interval into NaN bounds (refuted with a witness).", "quantifier": "all inputs and scales", "why_tests_cant": "metamorphic law; violation depends on an absolute tolerance", "anchors": ["feedx/statistics.py:relative_difference_confidence_interval"]}
{"id": "C59", "title": "When a relative difference is reported", "statement": "The t-tests report relative_difference and its bounds iff both (trimmed) means are >= 0, as mean1/mean2 - 1; otherwise all three are None. yuens_t_test_ind on plain metrics raises ZeroDivisionError when the control mean is 0 and the treatment mean is >= 0 instead of returning a result (refutes totality); the paired test returns an infinite or NaN lift.", "quantifier": "every pair of samples", "why_tests_cant": "degenerate data reachable only for particular samples (e.g. trimmed-away sparse metrics)", "anchors": ["feedx/statistics.py:yuens_t_test_ind", "feedx/statistics.py:yuens_t_test_paired"]}
{"id": "C60", "title": "Ratio metrics use the delta method", "statement": "For non-zero numerator and denominator means the variance of a ratio equals the gradient quadratic form of the covariance matrix, is non-negative, and the difference-of-ratios variance for independent arms is the sum; with numerator mean 0 the code returns NaN although the gradient form is finite (refuted with a witness).", "quantifier": "all means and covariance matrices", "why_tests_cant": "algebraic identity over all reals; degenerate case", "anchors": ["feedx/statistics.py:_ratio_mean_and_variance", "feedx/statistics.py:_difference_of_ratios_mean_and_variance"]}
{"id": "C61", "title": "Minimum detectable effect", "statement": "The MDE is se*(t_{1-alpha*}+t_power); it is positive iff power > alpha* (alpha/2 two-sided, alpha one-sided) for positive standard error, so 'always positive' needs power above that level; it is linear in the standard deviation, increasing in power, decreasing in alpha; the independent MDE uses se = 2*sd/sqrt(n).", "quantifier": "all standard deviations, sample sizes, powers, alphas", "why_tests_cant": "inequalities over all reals", "anchors": ["feedx/statistics.py:calculate_minimum_detectable_effect_from_stats", "feedx/statistics.py:yuens_t_test_ind_minimum_detectable_effect", "feedx/statistics.py:yuens_t_test_paired_minimum_detectable_effect"]}
{"id": "C62", "title": "Crossover alignment", "statement": "_prepare_metrics_for_crossover_experiment pairs each item's treated-period value with its own control-period value; with de-meaning the control mean equals the raw control mean and adding a constant to every item's second (or first) period does not change any treatment-minus-control difference; without de-meaning the values are the raw ones.", "quantifier": "every data set", "why_tests_cant": "algebraic identity over all arrays", "anchors": ["feedx/experiment_analysis.py:_prepare_metrics_for_crossover_experiment"]}
{"id": "C63", "title": "How much of a synthetic effect a crossover analysis recovers", "statement": "If a constant effect e is applied to the treated cells, the estimated difference rises by exactly e without de-meaning (for every trimming), and by 4f(1-f)e with de-meaning, f being the fraction treated first, i.e. by e iff f = 1/2 or e = 0.", "quantifier": "every data set, effect and assignment", "why_tests_cant": "identity over all data; unbalanced assignments", "anchors": ["feedx/experiment_analysis.py:_prepare_metrics_for_crossover_experiment", "feedx/experiment_simulations.py:apply_synthetic_treatment_effect"]}
{"id": "C64", "title": "How much of a synthetic effect a regular analysis recovers", "statement": "Applying a constant effect e to treated items raises the estimated difference by exactly e and leaves standard error and degrees of freedom unchanged when no pretest column exists. With a pretest column (untrimmed CUPED) it rises by e (1 - r^2), r being the correlation of the arm with the pretest values, i.e. by e iff e = 0 or the arms have equal pretest means.", "quantifier": "every data set, effect, trimming", "why_tests_cant": "identity over all data", "anchors": ["feedx/experiment_analysis.py:_analyze_regular_experiment_single_metric", "feedx/experiment_simulations.py:apply_synthetic_treatment_effect"]}
{"id": "C65", "title": "Analysis significance level", "statement": "analyze_single_metric always uses alpha = 0.05 for significance and confidence intervals, whatever design.alpha is; so 'the analysis uses the design's alpha' is refuted, and holds only for designs with alpha = 0.05.", "quantifier": "every design and data set", "why_tests_cant": "a defaulted argument; visible only for designs with another alpha", "anchors": ["feedx/experiment_analysis.py:_analyze_regular_experiment_single_metric", "feedx/experiment_analysis.py:_analyze_crossover_experiment_single_metric", "feedx/experiment_design.py:ExperimentDesign"]}
{"id": "C66", "title": "Analysing many metrics", "statement": "analyze_experiment returns one row per metric, in the given order and under its name, each equal to analyze_single_metric on the pivoted data with that metric's column, denominator and trimming override (or the design's trimming); a missing period column raises.", "quantifier": "every metric list, data set, design", "why_tests_cant": "unbounded metric lists", "anchors": ["feedx/experiment_analysis.py:analyze_experiment", "feedx/experiment_analysis.py:analyze_single_metric"]}
{"id": "C67", "title": "Simulation start weeks stay inside the data", "statement": "For a design drawn from the candidates used in calculate_minimum_start_week_id, the valid start weeks of its SimulationAnalysis are a non-empty range and each leaves pretest_weeks before and runtime_weeks from it inside the historical weeks.", "quantifier": "all candidates, designs and historical week ids", "why_tests_cant": "unbounded integers and collections", "anchors": ["feedx/experiment_simulations.py:SimulationAnalysis.valid_start_week_ids", "feedx/experiment_simulations.py:SimulationAnalysis.__post_init__", "feedx/experiment_simulations.py:calculate_minimum_start_week_id"]}
{"id": "C68", "title": "Bootstrap sampling", "statement": "_bootstrap_sample_data returns as many rows as it got, each a copy of an original row, with fresh ids 0..n-1, namely the rows at the drawn positions in the order drawn; exactly the reserved column names are rejected, and a simulation never meets them; the ids are distinct, so that trimming after it never confuses two copies of one item.", "quantifier": "every data set and random draw", "why_tests_cant": "quantifies over random draws", "anchors": ["feedx/experiment_simulations.py:_bootstrap_sample_data"]}
{"id": "C69", "title": "Random simulated assignment and column name round trip", "statement": "apply_random_treatment_assignment gives every item exactly one arm (all rows of an item the same), keeps all rows and values; the flatten/split of column names restores the (metric, period) pairs iff the metric name is non-empty, does not start with '_', contains no '__' and does not end with '_'; other metric names come back corrupted (refuted with a witness).", "quantifier": "every data set, draw, and metric name string", "why_tests_cant": "all strings; all draws", "anchors": ["feedx/experiment_simulations.py:apply_random_treatment_assignment"]}
{"id": "C70", "title": "Synthetic effect application", "statement": "apply_synthetic_treatment_effect adds the effect exactly to (metric,test) of arm 1 in a regular design, and to (metric,test_1) of arm 1 and (metric,test_2) of the other arm in a crossover; every other cell is unchanged; missing columns or index level raise.", "quantifier": "every pivoted data set, effect", "why_tests_cant": "all data sets", "anchors": ["feedx/experiment_simulations.py:apply_synthetic_treatment_effect"]}
{"id": "C71", "title": "Simulation state machine", "statement": "validate_design before estimate_minimum_detectable_effect raises and changes nothing; after any sequence of calls, MDE attributes are set iff an estimate succeeded, every validation property is None iff no validation has completed, and all_robustness_checks_pass is None iff validation has not run and otherwise the conjunction of the five checks.", "quantifier": "every sequence of method calls and any statistical back-end", "why_tests_cant": "history property", "anchors": ["feedx/experiment_simulations.py:SimulationAnalysis.validate_design", "feedx/experiment_simulations.py:SimulationAnalysis.estimate_minimum_detectable_effect", "feedx/experiment_simulations.py:SimulationAnalysis.all_robustness_checks_pass"]}
{"id": "C72", "title": "Robustness check thresholds and rates", "statement": "Each robustness check passes iff its p-value is >= the threshold (equality passes); the simulated false positive rate / power is the fraction of A/A / A/B p-values strictly below design.alpha, a number in [0,1].", "quantifier": "every list of p-values, alpha and threshold", "why_tests_cant": "boundary equality and all lists", "anchors": ["feedx/experiment_simulations.py:SimulationAnalysis._is_above_p_value_threshold", "feedx/experiment_simulations.py:SimulationAnalysis.simulated_false_positive_rate", "feedx/experiment_simulations.py:SimulationAnalysis.simulated_power_at_minimum_detectable_effect"]}
{"id": "C73", "title": "Averaged metric statistics", "statement": "The estimated average is the mean over all valid start weeks of the per-start averages, the standard deviation is the square root of the mean per-start variance, and whenever a start week is estimated its sample size equals the design's n_items_after_post_trim. A start week is estimated exactly if the columns exist, every test period (and the pretest, with pre-trimming) is observed and the number of items is the design's. The statistics of a start week are the trimmed mean and winsorized variance of the test values in a regular design without pretest, those left by the regression on the pretest values with pretest (at most the former when trimmed; NaN for a constant pretest), the mean of both test periods and the variance of their differences in a crossover. The minimum detectable effect is that of C61 for these numbers and never fails once the averages exist; data with every item in every week can always be estimated.", "quantifier": "every data set and design", "why_tests_cant": "all data sets", "anchors": ["feedx/experiment_simulations.py:SimulationAnalysis._estimate_average_primary_metric_stats", "feedx/experiment_simulations.py:SimulationAnalysis._estimate_primary_metric_stats"]}
{"id": "C74", "title": "Displayed p-values and colours", "statement": "For a finite p-value the displayed text is 'p<0.001' iff p < 1/1000 and 'p>0.99' iff p > 99/100 (as exact decimal numbers, although the code compares with doubles), otherwise a decimal number with 3 decimals below 0.01 and 2 above, within half a unit of the last decimal and never 0 or 1; it carries '(Significant)' iff p < alpha. A NaN p-value is displayed as 'p>0.99' (so the text alone is refuted as evidence of a large p-value). A row is grey iff not significant, green iff significant and positive, pink otherwise. The bounds of the relative interval are shown with the right signs and never in the wrong order.", "quantifier": "every double p-value, alpha, difference, bound and number of decimals", "why_tests_cant": "all doubles, boundaries at decimal literals that are not representable, NaN", "anchors": ["feedx/experiment_analysis.py:_format_p_value", "feedx/experiment_analysis.py:_highlight_significant", "feedx/experiment_analysis.py:_format_relative_effect_ci_string"]}
{"id": "C75", "title": "Distribution curves", "statement": "For non-negative values with positive total the Lorenz curve is non-decreasing, concave, above the diagonal and ends at (1,1); the cumulative curve gives for the i-th smallest value the fraction (n-i)/n, which is at most the fraction of items with that value or higher, with equality for the first of equal values. Values that add up to zero give a Lorenz curve without any finite point.", "quantifier": "every list of values", "why_tests_cant": "all lists", "anchors": ["feedx/plotting.py:_make_lorenz_plot", "feedx/plotting.py:_make_cumulative_distribution_plot"]}
{"id": "C76", "title": "Error bars with infinite bounds", "statement": "_plot_horizontal_error_bar_with_infs succeeds exactly when every finite bound lies on its side of the drawn point (0 for an unknown estimate) and every infinite side has some finite bound of the same kind in the list on that side of the point; what is drawn is then finite, and finite intervals are drawn exactly. Otherwise it raises a ValueError: so an interval shown alone needs two finite bounds, plot_effects fails whenever the primary metric's interval is unbounded, and even beside a bounded interval an unbounded one can fail (refutes 'handles potential infinities'). plot_effects needs exactly one row whose name equals the primary metric up to case.", "quantifier": "every list of values and bounds", "why_tests_cant": "all combinations of infinite bounds", "anchors": ["feedx/plotting.py:_plot_horizontal_error_bar_with_infs", "feedx/plotting.py:plot_effects"]}
{"id": "C77", "title": "Per-date CUPED plot", "statement": "The CUPED adjusted column used for plotting has, for every date, the same mean over items as the raw metric and no larger variance, when every item on that date has pretest rows and their pretest totals are not all equal, and it is then uncorrelated with the totals; a date with one row, with equal totals or with an item without pretest rows is shown without any value (NaN); without pretest rows, or with a null date, it raises.", "quantifier": "every data set", "why_tests_cant": "all data sets", "anchors": ["feedx/plotting.py:_add_cuped_adjusted_metric_per_date"]}
{"id": "C78", "title": "Prepared experiment data stays inside the experiment", "statement": "When prepare_and_validate_experiment_data returns with the null, duplicate and date checks active, every observed date lies in the pretest weeks or the runtime weeks and the earliest one is exactly the first pretest day: performance data that reaches further back (documented as allowed by the date check) is rejected by the null check.", "quantifier": "every performance data set, assignment, design and start date", "why_tests_cant": "interaction of three checks over all data sets", "anchors": ["feedx/data_preparation.py:prepare_and_validate_experiment_data", "feedx/data_preparation.py:_validate_experiment_dates_match_design"]}
{"id": "C79", "title": "Variance behind the minimum detectable effect of a crossover", "statement": "For a crossover design without post-trimming, the variance used for the minimum detectable effect, divided by the sample size, is at least the mean over all 2^n arm assignments of the squared standard error the analysis reports (exactly n/(n-1) times it). With post_trim_percentile > 0 the periods are not de-meaned and the code adds (m1-m2)^2/4; the mean over all assignments is then exactly ((n-1)/n sigma^2 + mu^2)/n with mu the mean difference of the periods, so the estimate is too small by (3/4 mu^2 - sigma^2/n)/n: the claim that the extra variance is covered is refuted (a factor 4 too small for constant differences).", "quantifier": "every pivoted data set, design and arm assignment", "why_tests_cant": "averages over exponentially many assignments and all data sets", "anchors": ["feedx/experiment_simulations.py:SimulationAnalysis._estimate_primary_metric_stats", "feedx/experiment_analysis.py:_prepare_metrics_for_crossover_experiment", "feedx/experiment_analysis.py:_analyze_crossover_experiment_single_metric"]}
{"id": "C80", "title": "Summary of the analyses and its display", "statement": "The summary of a simulation analysis has the thirteen parameters of the design without the salt, the design id and ten results; two summaries agree on the parameters exactly if the designs agree up to the salt; the estimates are None exactly until an estimation has succeeded and the eight other results exactly until a validation has. The table has one row per analysis, sorted by the given column with missing values last; it fails exactly for no analysis, for an analysis whose summary fails and for an unknown column. The styled table loses nothing: every value of every row is shown under its own title, or is listed in the caption as a constant that all rows share (up to the sign of zero), or is one of the eight validation results hidden on request; the caption takes every constant parameter of the design except the washout weeks; a table without such a column is a KeyError; no two columns get the same title; a check is shown green exactly if it is true and red exactly if it is false.", "quantifier": "every list of analyses, every history of calls, every sorting permutation", "why_tests_cant": "all lists of designs and all combinations of constant columns", "anchors": ["feedx/experiment_simulations.py:SimulationAnalysis.summary_dict", "feedx/experiment_simulations.py:make_analysis_summary_dataframe", "feedx/experiment_simulations.py:_extract_constant_design_columns_for_caption", "feedx/experiment_simulations.py:format_analysis_summary_dataframe"]}
{"id": "C81", "title": "Plot of a metric over time", "statement": "plot_metric_over_time draws, for every date with rows, the average per item in each arm, their difference and a band of half width z times the square root of the sum over the arms of (squared deviations)/n^2; dates on which one arm is missing have no difference; an infinite value is drawn (the line is infinite and the band missing on its date) instead of being left out like a missing one. This band is strictly inside the usual one (n-1) whenever the arms have two or more items and the values vary, and has no width for single items. With the CUPED adjustment the difference is the raw one minus theta times the difference of the arms' average pretest totals; dates without a defined adjustment are left out; the adjustment can widen the band (refuted: never widens). If an arm is missing it raises KeyError, and it always fails for frames whose date and period columns are not called 'date' and 'time_period', although their names are arguments.", "quantifier": "every data set, every z, every column naming", "why_tests_cant": "all data sets; the failure for other names needs a call with other names", "anchors": ["feedx/plotting.py:plot_metric_over_time", "feedx/plotting.py:_add_cuped_adjusted_metric_per_date"]}
{"id": "C82", "title": "Plot of the history of a metric", "statement": "plot_metric_history draws one total per observed week in increasing order and these add up to the total of the metric. If every item has the same number of rows, the Lorenz curve after k items is the largest share of the metric that k items capture; without that the curve, computed from averages per row, can show more than any k items capture (refuted: the title's claim for all data).", "quantifier": "every data set with known keys and finite values", "why_tests_cant": "all data sets; unbalanced panels", "anchors": ["feedx/plotting.py:plot_metric_history", "feedx/plotting.py:_make_lorenz_plot"]}
{"id": "C83", "title": "From the raw rows to the results", "statement": "If prepare_and_validate_experiment_data returns for a concluded experiment (the null, duplicate, spacing, finiteness and date checks active, all dates at the same time of day), every week of the experiment is observed at its first instant (refuted without the common time of day; with the check of the week ids instead of the spacing every week has a row whatever the times, and all that follows holds too), and analyze_experiment on the returned frame without its time_period column (as the notebook does) tests, for each wanted metric, exactly these numbers: for every assigned item and every period, the sum over the raw performance rows of that item whose date lies in the period's weeks, missing values as 0, divided by the number of weeks of the period; at-least-one indicators are 1 in raw rows with a positive value. Items appear once each, all assigned ones and no others; every value is finite. In a crossover the plain metrics without an override always give results. The returned frame with its time_period column always fails.", "quantifier": "every performance data set, assignment, design, start date, set of metrics and indicators, every order of the outer merge and of list(set(..))", "why_tests_cant": "composition of merging, filling, indicators, labelling, pivoting and testing over all inputs", "anchors": ["feedx/data_preparation.py:prepare_and_validate_experiment_data", "feedx/experiment_analysis.py:analyze_experiment", "feedx/experiment_analysis.py:analyze_single_metric", "feedx/experiment_analysis.py:pivot_time_assignment"]}
{"id": "C84", "title": "Warnings about constant samples", "statement": "Building a TrimmedArray prints the first warning exactly if some row has all its values within 1e-8 + 1e-5*|first value| of its first value, and the second exactly if no row does but some trimmed row does. A row of equal values is always reported, and without a warning every (winsorized) variance is strictly positive, so no standard error is zero. The converse is refuted: because of the absolute tolerance, small varying values are reported as constant while the same values in other units are not.", "quantifier": "every array, quantile and sorting routine", "why_tests_cant": "all arrays; a warning is only printed, no test asserts its absence", "anchors": ["feedx/statistics.py:_any_array_is_constant", "feedx/statistics.py:TrimmedArray.__init__", "feedx/statistics.py:TrimmedArray.var"]}
{"id": "C85", "title": "Simulated effects are found", "statement": "validate_design runs every simulation on data drawn as described: the start week, the bootstrap positions (row i is the row at the i-th drawn position, called i), the order before trimming and one arm per item, which are the arms that are compared, each simulation going on with the generator where the one before has left it. Every simulated A/B result is the A/A result of the same simulated data with the minimum detectable effect e added: for a crossover design that trims and for a regular design without pretest the estimate moves by exactly e and the standard error, degrees of freedom and size stay; for an untrimmed crossover, and an untrimmed regular design with pretest, it moves by c*e with 0 <= c <= 1 (regular designs with a constant pretest: both are NaN). For a crossover design (finite data, 0 < power < 1, 0 < alpha < 2) the estimated effect is always a number, and if it could be estimated then any number of simulations succeeds (plain and different column names).", "quantifier": "every data set, design, number of simulations, every state and behaviour of the random generator", "why_tests_cant": "all data sets and all draws of the generator; the tests use one seed", "anchors": ["feedx/experiment_simulations.py:SimulationAnalysis.validate_design", "feedx/experiment_simulations.py:apply_synthetic_treatment_effect", "feedx/experiment_simulations.py:bootstrap_sample_data", "feedx/experiment_simulations.py:apply_random_treatment_assignment", "feedx/experiment_analysis.py:analyze_single_metric"]}
{"id": "C86", "title": "Formatted table of results", "statement": "format_experiment_analysis_results_dataframe shows, in this order, the effect columns asked for (relative, absolute, yearly) and the p-value, and hides every raw column; the cells of a row are the texts of that row. Read back, an absolute effect is the number to the requested significant figures (nearest, ties to even), with its sign, zero only for zero, without separators up to three figures; estimate and bounds keep their order. A yearly projection is 52 * sample_size * effect to the requested decimals up to the error of one float multiplication, with the sign of the effect and groups of three digits. The header of the intervals is the level of the first row within half a percent (95% for every analysis). The table is shown exactly if there is a row and, when relative effects are asked for, at least one of them is defined; other undefined ones appear as +nan%. Refuted: every non-empty table can be shown (all averages negative gives TypeError); the header holds for all rows; no header says 100%; projections never hide a non-zero effect.", "quantifier": "every results table, every choice of columns and precision, every binary64 number", "why_tests_cant": "formatting of all doubles and all combinations of undefined relative effects", "anchors": ["feedx/experiment_analysis.py:format_experiment_analysis_results_dataframe", "feedx/experiment_analysis.py:_format_absolute_effect_ci_string", "feedx/experiment_analysis.py:_format_yearly_projected_effect_ci_string"]}
{"id": "C87", "title": "The designer's journey", "statement": "The calls of the design notebook fit together. What prepare_and_validate_historical_data returns is a panel: every item has exactly one row in every week, weeks are seven days apart and values are numbers that are not negative; complete daily or weekly histories are accepted and keep all items. The list of designs can be built exactly if crossover candidates have a washout of at least one week, every combination is a valid design and there is a start week with room for all of them; every offered design is one of the combinations. If the list could be built, the minimum detectable effect of every design can be estimated, and every crossover design can then be validated with any number of simulations from any state of the generator; a validated design is left alone unless forced. A design that passed can be exported, and what is exported agrees with the stored design: it can be read back, every item has one arm, and the item count and coinflip checks of the analysis pass. Refuted: a design validated with zero simulations can be repaired by validating it again (it raises KeyError from then on).", "quantifier": "every raw data set, every list of candidate designs, every metric name that is none of the prepared frame's own columns (plain names for validation), every state and behaviour of the random generator", "why_tests_cant": "composition of preparation, enumeration, estimation, validation and export over all inputs", "anchors": ["notebooks/01_experiment_designer.ipynb", "feedx/data_preparation.py:prepare_and_validate_historical_data", "feedx/experiment_simulations.py:SimulationAnalysis.estimate_minimum_detectable_effect", "feedx/experiment_simulations.py:SimulationAnalysis.validate_design", "feedx/data_preparation.py:perform_treatment_assignment"]}
{"id": "C88", "title": "From raw data frames to prepared data", "statement": "prepare_and_validate_historical_data reads exactly three columns of the raw frame: its result is that of the steps on the table of their conversions, and other columns do not matter. It accepts a call only if the metric is a known one or 'other', the three column names exist and differ and a column given as 'other' has no standard name. prepare_and_validate_experiment_data returns the rows that the steps give for the table of the converted performance columns and the pairs (item, arm) of the assignment data; every row carries the other cells of an assigned row of its item, every assigned row occurs, and, unless the null check is skipped, no such cell is missing; conversely it succeeds when the steps do and no such cell is missing. Other assignment columns called like a metric, date or week_id are rejected. Refuted: a metric column keeps its values (one called week_id is replaced by the week ids without a message); rows without an item id are rejected (they become an item called nan); columns of the assignment data that nobody asked for do not matter (a missing note makes the call fail).", "quantifier": "every raw frame, every choice of column names and metrics, every conversion function", "why_tests_cant": "all frames and all namings of columns; the tests use a few fixed names", "anchors": ["feedx/data_preparation.py:prepare_and_validate_historical_data", "feedx/data_preparation.py:prepare_and_validate_experiment_data", "feedx/data_preparation.py:standardize_column_names_and_types"]}
{"id": "C89", "title": "What stops a regular experiment", "statement": "The analysis of a regular (not crossover) experiment whose columns are there fails in exactly two ways: with IndexError exactly if one arm has no item, and otherwise only with ZeroDivisionError, because the two means are Python floats. Without a pretest period it succeeds exactly if both arms have items and the trimmed mean of the control arm is not zero or that of the treatment arm is negative; with a pretest period the same holds for the adjusted values, and for undefined adjusted values (nothing trimmed, constant pretest) only the arms matter. Hence a metric without negative values that is positive for at most as many control items as are trimmed on one side cannot be analysed. If the effect of a regular design could be estimated, its validation returns or fails with one of these two errors, the first only if some draw of the arms for more than 50 items left an arm empty; without a pretest period, with positive values and no such draw, every validation succeeds. Refuted: every estimated regular design can be validated.", "quantifier": "every pivoted data set, design, override, number of simulations, state and behaviour of the random generator", "why_tests_cant": "all data sets; the errors need empty arms or zero trimmed means, which the tests do not have", "anchors": ["feedx/experiment_analysis.py:_analyze_regular_experiment_single_metric", "feedx/experiment_analysis.py:analyze_single_metric", "feedx/statistics.py:yuens_t_test_ind", "feedx/statistics.py:TrimmedArray.mean", "feedx/experiment_simulations.py:SimulationAnalysis.validate_design"]}
{"id": "C90", "title": "The text printed for a design", "statement": "Every constructed design can be printed; the text starts with its design id (which does not depend on the salt) and only the last line depends on the salt. The text says exactly what the design is: the type line distinguishes crossover, regular and regular with CUPED (a pretest period), the metric, the pretest weeks, the runtime, alpha and power are those of the design; the crossover lines occur exactly for crossover designs, the swap line names half the runtime, and the listed washout weeks are exactly the weeks that the analysis labels washout. The item lines show the number of eligible items and the numbers left after each trimming, each exactly if trimming removes items, and each printed percentage is within 0.005 percentage points (plus 2^-40) of the percentile of the design. Two designs with the same text agree on all these attributes. Refuted: 'no trimming used' means that no percentile was set; announced top trimming removes items; an announced percentage is positive; the text shows whether items were assigned.", "quantifier": "every design with one-line metric and salt, every number representation whose text is one line", "why_tests_cant": "all designs; the tests print six fixed designs (whose exact texts are reproduced as examples)", "anchors": ["feedx/experiment_design.py:ExperimentDesign.__str__", "feedx/experiment_design.py:ExperimentDesign.design_id"]}
{"id": "C91", "title": "What the results of a concluded experiment depend on, and their sample sizes", "statement": "For two prepared data sets of concluded experiments with the same assigned items, if for every analysed column, period and assigned item the raw totals over the period agree, then the results are equal, whatever else differs (the order of the rows, the dates within a week, rows of other items, the skipped checks, the pretest length of a crossover). In particular the order of the raw rows and of the assignment does not matter, daily and weekly data with equal weekly totals give equal results, and a crossover reads nothing but its test weeks (not the washout weeks and not the weeks before the start). If the number of items was checked, every result of a crossover has exactly the sample size that the design announces and prints; in a regular experiment the reported size lies between the announced one minus 2 and plus 4, differs from it by an even number, and both bounds are attained. Refuted: a regular result has exactly the announced size; equal weekly totals of a metric fix its at-least-one metric (with daily data it counts days and can exceed one).", "quantifier": "every raw data, assignment, design, set of metrics, argsort and t-distribution", "why_tests_cant": "all pairs of data sets; the tests analyse single fixed data frames", "anchors": ["feedx/experiment_analysis.py:analyze_experiment", "feedx/experiment_analysis.py:analyze_single_metric", "feedx/data_preparation.py:prepare_and_validate_experiment_data", "feedx/experiment_design.py:ExperimentDesign.n_items_after_post_trim"]}
{"id": "C92", "title": "The deep dive shows the simulations behind the reported rates", "statement": "The figure of a design is refused as not validated exactly if no validation succeeded, and a validation of no simulations gives a KeyError. Otherwise the first axis shows the A/A and the A/B effects with lines at zero and at the minimum detectable effect, the other two the A/A and the A/B p-values. It exists exactly if none of the four columns has an infinite value and each has a number; the bars of a column count each of its numbers once (missing values are left out) when the edges cover them, and the reported rates are shares of the simulations shown, where missing p-values count as not significant. p-values of all analyses are numbers between 0 and 1 or missing. For a crossover design, or a design without pretest, whose data are finite and whose effect is a number, the figure exists unless all A/A or all A/B p-values are missing. Refuted: the bars labelled Density have area one; every validated design can be plotted (a crossover design with a metric that is zero throughout is estimated and validated with a reported false positive rate of zero, yet all its A/A p-values are missing and the figure fails).", "quantifier": "every simulation object, choice of bin edges, data frame, generator of random numbers, argsort and t-distribution", "why_tests_cant": "all lists of simulation results, with missing and infinite values, and all states of the object; plots are only compared by hand", "anchors": ["feedx/plotting.py:_make_density_plot", "feedx/plotting.py:plot_deep_dive", "feedx/experiment_simulations.py:SimulationAnalysis.validate_design", "feedx/statistics.py:yuens_t_test_paired"]}
{"id": "C93", "title": "The analyzer's journey from the form to the figures", "statement": "The fields of the form are read as trimmed pieces between commas; a check is left out exactly if its name is such a nonempty piece; the metrics are the given standard columns and the pieces of the other metrics, the indicators those of the given clicks, impressions and conversions. Every requested other column must exist, also the empty name after a trailing comma. The analysis of the notebook gives its eleven results for a concluded crossover with checked data exactly if all five standard columns are given, although the form calls them optional; otherwise it is the error of missing columns. The figure of the effects finds the primary metric of a design exactly if it is clicks, impressions or conversions: designs for cost, conversion value or another metric get the error of a missing metric. The figure is drawn exactly if, beyond that, some metric has a relative difference, the relative interval of the primary metric is finite and contains its estimate, and the other intervals fit; without any relative difference it is a TypeError. Five results are projected, the first five. The plots of the raw values exist for every column if both arms have items, show exactly the observed days, and each point is the difference of the means of the arms on that day; the adjusted plots always fail for designs without pretest weeks. Every period of a concluded experiment has all its days, one or seven per week, except that the last week may be cut short; refuted: the last week is complete.", "quantifier": "every form, performance data, assignment, design, start, set of skipped checks, argsort and t-distribution", "why_tests_cant": "all texts of the form, all column choices and all lengths of data; notebooks are not tested at all", "anchors": ["notebooks/02_experiment_analyzer.ipynb:cells 19-43", "feedx/data_preparation.py:prepare_and_validate_experiment_data", "feedx/experiment_analysis.py:analyze_experiment", "feedx/plotting.py:plot_metric_over_time", "feedx/plotting.py:plot_effects"]}
{"id": "C94", "title": "Trimming resists as many wrong values as it removes on a side", "statement": "If k samples are trimmed on each side and at most k values are wrong, even infinite or missing, then trimmed mean and winsorized mean lie within the range of the other values and the winsorized variance is at most n / (n - 2k - ddof) times the squared half range; hence both t-tests return a difference within the bounds of the good values and a finite standard error. k + 1 wrong values can move the mean beyond every bound. Larger values never give a smaller trimmed or winsorized mean.", "quantifier": "every array, quantile, number and place of wrong values, argsort and t-distribution", "why_tests_cant": "all values at all places, sharp in the number of wrong values", "anchors": ["feedx/statistics.py:TrimmedArray.mean", "feedx/statistics.py:TrimmedArray.winsorized_mean", "feedx/statistics.py:TrimmedArray.var", "feedx/statistics.py:yuens_t_test_ind", "feedx/statistics.py:yuens_t_test_paired"]}
{"id": "C95", "title": "The minimum detectable effect is detected with the stated power", "statement": "If the estimate is the true effect plus the standard error times a deviation with Student's t distribution, then an effect of the size of the minimum detectable effect is found significant for all deviations above the quantile 1 - power (one-sided: exactly those; two-sided: also for those far on the other side). With power above one half every estimate that reaches it is significant, with power one half it is the threshold of significance. Refuted: every significant estimate reaches it.", "quantifier": "every t-distribution, degrees of freedom, standard error, alternative, power and alpha", "why_tests_cant": "all powers and levels; the tests compare single numbers", "anchors": ["feedx/statistics.py:calculate_minimum_detectable_effect_from_stats", "feedx/statistics.py:ttest_from_stats"]}
{"id": "C96", "title": "The unit of the covariate does not matter for CUPED", "statement": "apply_cuped_adjustment returns the same values when the covariate is multiplied by a non-zero number and shifted, with and without trimming, also for constant covariates. Without trimming the adjusted metric follows the unit and the origin of the metric.", "quantifier": "every metric and covariate of the same length, quantile, factor, shift and argsort", "why_tests_cant": "all data and units", "anchors": ["feedx/statistics.py:apply_cuped_adjustment"]}
{"id": "C97", "title": "When the analysis of a regular experiment gives results", "statement": "For concluded regular experiments with checked data the analysis of any list of metrics ends in one of three ways: an error of an empty arm exactly if some arm has no item, otherwise the division by zero of a metric without denominator, or the results of all metrics under their names; metrics with a denominator never stop it. Without pretest weeks it gives results exactly if both arms have items and for every metric without denominator the trimmed mean of the weekly averages of the control arm is not zero or that of the treatment arm is negative. The notebook's eleven results therefore come, for averages that are not negative, exactly if the trimmed means of the control arm of the five metrics are not zero and some control item has an impression, a click and a conversion. Refuted: checked data with items in both arms can be analysed (one control item without conversions and no metric is reported).", "quantifier": "every performance data, assignment, regular design, start, set of skipped checks, list of metrics, argsort and t-distribution", "why_tests_cant": "all data: which numbers make the whole analysis fail is a condition on trimmed means of totals", "anchors": ["feedx/experiment_analysis.py:analyze_experiment", "feedx/experiment_analysis.py:analyze_single_metric", "feedx/statistics.py:yuens_t_test_ind", "feedx/statistics.py:relative_difference_confidence_interval", "notebooks/02_experiment_analyzer.ipynb:cells 30-36"]}
{"id": "C98", "title": "The adjusted plots of the notebook, from the raw values", "statement": "For prepared data with pretest weeks, checked for missing values, repeated items, infinite values and fitting dates, and with items in both arms, the plots over time with the CUPED adjustment are drawn exactly if for every plotted column two assigned items differ in their raw totals before the start; otherwise the call ends in the KeyError of a missing treatment arm (for example if every item has a click on every pretest day, so that the indicator of a click cannot be adjusted). Every plot shows all observed dates in order, and on each date the averages of both arms, their difference and its band for the values of the date minus the part explained by the total before the start, with the regression coefficient of that date. The adjusted differences of the dates before the start always add up to zero, so an adjusted plot cannot show an imbalance before the start.", "quantifier": "every performance data, assignment, regular or crossover design with pretest weeks, form, start, set of skipped checks, argsort and critical value", "why_tests_cant": "all data: the sum of the adjusted differences is an identity over all items and dates, and the failing data sets are those without variation before the start; plots are only compared by hand", "anchors": ["notebooks/02_experiment_analyzer.ipynb:cell 24", "feedx/plotting.py:plot_metric_over_time", "feedx/plotting.py:_add_cuped_adjusted_metric_per_date", "feedx/statistics.py:apply_cuped_adjustment", "feedx/data_preparation.py:prepare_and_validate_experiment_data"]}
{"id": "C99", "title": "The confidence intervals invert the tests and have their level", "statement": "A difference lies in the interval of the absolute difference exactly if the test of the treatment values less this difference is not significant, for the independent and the paired test (where bounds are reported) and every alternative; the standard error does not change. If the estimate is the true difference plus the standard error times a deviation, the interval contains the true difference exactly for the deviations outside of the tails of probability alpha that the alternative looks at. The same holds for the bounded interval of the relative difference and the deviation of m1 - (1 + lift) m2.", "quantifier": "every pair of finite samples, difference, quantile, variance option, alternative, alpha, argsort and t-distribution", "why_tests_cant": "all data, differences and levels; the tests compare single intervals with fixed numbers", "anchors": ["feedx/statistics.py:absolute_difference_confidence_interval", "feedx/statistics.py:relative_difference_confidence_interval", "feedx/statistics.py:yuens_t_test_ind", "feedx/statistics.py:yuens_t_test_paired", "feedx/statistics.py:ttest_from_stats"]}
{"id": "C100", "title": "What the CUPED adjustment does to the test of a regular experiment", "statement": "In the analysis of a regular experiment with pretest values and without trimming, the absolute difference is the difference of the test averages minus the regression slope over all items times the difference of the pretest averages, and the squared standard error is made of the squared deviations of each arm from a line with that slope. If both arms have the same pretest average the estimate is that of the plain test, and if they also have the same number of items the standard error is at most that of the plain test, with equality exactly if test and pretest values do not vary together. Without equal pretest averages, or with them but arms of different sizes, the adjusted standard error can be larger (witnesses).", "quantifier": "every table of a regular experiment with items in both arms whose pretest values vary, every metric, argsort and t-distribution", "why_tests_cant": "an identity and an inequality over all data sets; the tests only check one random sample in which the variance fell, and the two witnesses show that this is not general", "anchors": ["feedx/experiment_analysis.py:analyze_single_metric", "feedx/statistics.py:apply_cuped_adjustment", "feedx/statistics.py:yuens_t_test_ind"]}
{"id": "C101", "title": "Ratio metrics with constant denominators, and numerators that average zero", "statement": "If every item of a sample has the same positive denominator, the ratio test gives exactly the results of the plain test of the divided values: the independent test wherever that test has a standard error and both averages are not zero, also with different denominators in the two samples and with trimming; the paired test without trimming, for at least two items and averages that are not zero. If the kept numerators of one sample average zero (for example no conversion in one arm), the independent ratio test has neither standard error nor p-value and is not significant, whatever the denominators are, and the paired ratio test with constant denominators still has the estimate, standard error, p-value and significance of the plain test, but the bounds of its absolute interval are not numbers (both for the two-sided alternative, for a one-sided one the bound that is not infinite). So the equality with the plain test is false without the condition on the averages (witness).", "quantifier": "every pair of finite samples, positive denominators, quantile, variance option, alternative, alpha, argsort and t-distribution", "why_tests_cant": "an identity between two branches of the code for all data, and a division by zero that only data without any positive value in an arm shows; the tests of ratio metrics use random data", "anchors": ["feedx/statistics.py:yuens_t_test_ind", "feedx/statistics.py:yuens_t_test_paired", "feedx/statistics.py:_ratio_mean_and_variance", "feedx/statistics.py:_difference_of_ratios_mean_and_variance"]}
{"id": "C102", "title": "Ratio metrics compare ratios of totals of the raw rows", "statement": "After a concluded experiment has been prepared and accepted, a metric with a denominator that is analysed without trimming compares ratios of totals, not averages of ratios: in a regular experiment without a pretest the control average is the total of the numerator over the raw rows of the control items in the runtime divided by that of the denominator, and the absolute difference is the treated ratio of totals minus it; it is a number only if neither total of the denominator is zero. Weeks without rows and items without rows do not change these totals, whereas the estimate of a metric without denominator is the total divided by the number of weeks and of items. In a crossover experiment the control totals are those of the control periods after the washout, and the treated totals are those of the treated periods, shifted by the period effect in proportion to the difference of the group sizes, so with equally large groups they are exactly the totals of the treated periods. It is false that the estimate is positive if the ratio of every item rises under treatment (Simpson's paradox, witness).", "quantifier": "every accepted concluded experiment, daily or weekly, every requested ratio metric with untrimmed quantile, argsort, item order and t-distribution", "why_tests_cant": "relates the output of the whole chain (filling, weeks, pivot, averages, test) to the raw rows for all data; the tests check the stages one by one on a few rows", "anchors": ["feedx/experiment_analysis.py:analyze_experiment", "feedx/experiment_analysis.py:analyze_single_metric", "feedx/experiment_analysis.py:pivot_time_assignment", "feedx/statistics.py:yuens_t_test_ind", "feedx/statistics.py:yuens_t_test_paired", "feedx/data_preparation.py:fill_missing_rows_with_zeros"]}
{"id": "C103", "title": "A ratio metric without any numerator in one arm", "statement": "After a concluded experiment has been prepared and accepted, consider a metric with a denominator that is analysed without trimming (for example ROAS when no item of an arm has a conversion). In a regular experiment without a pretest, if no raw row of the runtime has a numerator other than zero for the items of one arm, whichever arm, the standard error, the statistic and the p-value are NaN and the result is not significant, however large the difference is. In a crossover experiment, if no raw row of the control periods has a numerator other than zero, or none of the treated periods with equally large groups, both bounds of the interval of the absolute difference are NaN.", "quantifier": "every accepted concluded experiment, every requested ratio metric with untrimmed quantile, all values of the denominator, argsort, item order and t-distribution", "why_tests_cant": "a zero divided by zero inside the delta method that only shows when an arm has no positive value at all; the tests of ratio metrics and of the analysis use data with positive values in both arms", "anchors": ["feedx/experiment_analysis.py:analyze_experiment", "feedx/experiment_analysis.py:analyze_single_metric", "feedx/statistics.py:_ratio_mean_and_variance", "feedx/statistics.py:_difference_of_ratios_mean_and_variance", "feedx/statistics.py:absolute_difference_confidence_interval"]}
{"id": "C104", "title": "Regular experiments estimate the average effect without bias, with a conservative error", "statement": "Give every item two values of a metric, one if it is treated and one if it is not, and look at the analysis of a regular experiment without pretest and trimming for every possible assignment. Over all assignments that treat the same number of items, and over all outcomes of throwing a coin for each item that leave items in both groups, the absolute differences average to the average effect over all items. Over all assignments that treat the same number of at least two items and leave at least two, the squared standard errors average to the variance of the estimates plus the variance of the effects divided by the number of items less one; so on average they are not too small, and they are exact only if the treatment has the same effect on every item. With trimming the estimate is not unbiased: an effect on one item can be invisible in every assignment (witness).", "quantifier": "every list of pairs of values, every number of treated items, every table holding the observed values, argsort and t-distribution", "why_tests_cant": "an average over all assignments (2^n of them) of all data sets; the simulations of the package only sample some assignments of one data set", "anchors": ["feedx/experiment_analysis.py:analyze_single_metric", "feedx/statistics.py:yuens_t_test_ind", "feedx/experiment_simulations.py:apply_random_treatment_assignment"]}
{"id": "C105", "title": "Crossover experiments estimate a share of the average effect", "statement": "Give every item four values of a metric, one for each period if it is treated then and if it is not, and look at the analysis of a crossover experiment without trimming for every possible choice of the items that are treated first. The analysis never fails. Over all assignments that treat the share f of the items first, the absolute differences average to 4 f (1 - f) times the average effect over items and periods, so to the average effect only if half of the items are treated first (or there is no effect); over all outcomes of throwing a coin for each of n items they average to (1 - 1/n) times the average effect, so they are not unbiased (witness with two items: half of the effect). With a quantile that is not zero but does not trim any item, where the period means are not taken out, the coins give exactly the average effect, but over assignments with groups of different sizes the difference between the untreated periods shows up in the average.", "quantifier": "every list of values, every number of items treated first, every table holding the observed values, argsort and t-distribution", "why_tests_cant": "an average over all 2^n assignments of all data sets; the package's own simulations sample assignments of one data set and large n, where the missing part is too small to see", "anchors": ["feedx/experiment_analysis.py:analyze_single_metric", "feedx/experiment_analysis.py:_prepare_metrics_for_crossover_experiment", "feedx/statistics.py:yuens_t_test_paired", "feedx/experiment_simulations.py:apply_random_treatment_assignment"]}
{"id": "C106", "title": "Crossover standard errors are on average slightly too small", "statement": "With the four possible values of every item as in C105, look at the analysis of a crossover experiment of n items without trimming over all assignments that treat half of the items first. The squared standard errors average to (n - 2)/(n - 1) times the sum of the variance of the estimates over the assignments and the variance of the effects of the items (averaged over both periods) divided by n - 1. So they are not conservative, in contrast to regular experiments (C104): if the effect is the same on every item, they are on average too small as soon as the estimates vary, since taking out the two period means costs two degrees of freedom and the paired test counts only one (witness with four items).", "quantifier": "every list of values of an even number of items, every table holding the observed values, argsort and t-distribution", "why_tests_cant": "an average over all assignments of all data sets, with a relative error of 1/(n - 1) that no simulation of the package could resolve", "anchors": ["feedx/experiment_analysis.py:analyze_single_metric", "feedx/experiment_analysis.py:_prepare_metrics_for_crossover_experiment", "feedx/statistics.py:yuens_t_test_paired", "feedx/statistics.py:_one_sample_degrees_of_freedom"]}
{"id": "C107", "title": "The CUPED adjustment shrinks the estimates on average", "statement": "Give every item a value before the test and two values in the test, one if it is treated and one if it is not, and look at the analysis of a regular experiment of n items with pretest weeks and without trimming. Over all assignments that treat the same number of items, and over all outcomes of throwing a coin for each item that leave items in both groups, the adjusted absolute differences average to the average effect minus 1/(n - 1) times the average effect weighted with the squared deviations of the pretest values. So the adjusted estimates are not unbiased, unlike the unadjusted ones of C104: an effect that is the same on every item is estimated as (n - 2)/(n - 1) of it on average (witness: one half with three items), because the slope is fitted to test values that contain the effect.", "quantifier": "every list of values whose pretest values are not all the same, every number of treated items, every table holding the observed values, argsort and t-distribution", "why_tests_cant": "an average over all assignments of all data sets, with a relative error of 1/(n - 1) that no test or simulation of the package could resolve", "anchors": ["feedx/experiment_analysis.py:analyze_single_metric", "feedx/statistics.py:apply_cuped_adjustment", "feedx/statistics.py:yuens_t_test_ind", "feedx/experiment_simulations.py:apply_random_treatment_assignment"]}
{"id": "C108", "title": "Totals and averages are exact for counts and nearly exact otherwise, in any order", "statement": "numpy adds the values of an array in an order that depends on the memory layout, and pandas adds the values of a group with a compensation for lost digits; every addition is rounded to a double. For integer values (clicks, conversions) whose absolute values add up to at most 2^53, every order gives exactly the true total, the total of a pandas group is exact too, and the average is the double closest to the true average; so no shuffling of rows can change a result. For any finite values, a total in which no value takes part in more than d additions is finite and differs from the true total by at most (1 + 2^-53)^d - 1 times the sum of the absolute values (at most 2 d 2^-53 times), unless that sum is close to the largest double, and the trimmed means of the model, which are exact, differ from the computed ones by at most the same with d + 1 instead of d, and the smallest positive number halved. The total of a pandas group of at most 2^48 finite values is within 7 times 2^-53 of the sum of the absolute values (if that is at most 2^1000) of the true total however many values there are, and the mean within 9 times; plain additions have no such bound (witness). That the order is irrelevant for all doubles is false (witness).", "quantifier": "every tree of additions over every list of doubles, every group of doubles, every trimmed array and argsort", "why_tests_cant": "the order of the additions depends on the processor and the layout of the array, so a test only sees one order of one data set", "anchors": ["feedx/statistics.py:TrimmedArray.mean", "feedx/experiment_analysis.py:_pivot_regular_time_assignment", "feedx/data_preparation.py:group_data_to_complete_weeks", "feedx/data_preparation.py:perform_treatment_assignment", "feedx/experiment_analysis.py:_prepare_metrics_for_crossover_experiment"]}
{"id": "C109", "title": "What the eleven rows of the analysis notebook say", "statement": "In the analysis notebook of a regular experiment without pretest, the rows Clicks, Impressions, Cost, Conversions and Conversion value compare, without trimming, the totals of the raw rows of that column in the runtime, divided by the weeks and by the items of the arm. CTR is clicks per impression, CPC cost per click and ROAS conversion value per cost, each a ratio of the raw totals of the whole arm, and a difference is only a number if neither total below the line is zero; in a crossover experiment with groups of equal size they are the same ratios of the treated and of the untreated weeks of all items. The three rows called 'At least one ...', which are never trimmed, count the raw rows with a positive value, divided by weeks and items: they are shares between 0 and 1 if no item has more than one raw row in a week, but with daily data they are numbers of days and can be 7 (witness).", "quantifier": "every raw data set, assignment, design and column form with which the notebook gets to its results, every argsort, order of distinct values and t-distribution", "why_tests_cant": "the notebook is not tested at all, and the meaning of a row combines the preparation of the data, the pivoting and the tests", "anchors": ["notebooks/02_experiment_analyzer.ipynb:cells 30-36", "feedx/experiment_analysis.py:analyze_experiment", "feedx/experiment_analysis.py:analyze_single_metric", "feedx/data_preparation.py:add_at_least_one_metrics"]}
{"id": "C110", "title": "Rounding of winsorized means, variances, covariances and standard deviations", "statement": "The code computes the winsorized mean, the residuals about that rounded mean and the sum of their squares in doubles; the matrix product adds the squares in an unknown order and may or may not round each square first. In every such order, if the computed variance is finite, it differs from the exact winsorized variance v of the model by at most ((1+u)^(r+6)-1) v, plus (1+u)^(r+6) times what the error of the mean adds (number of values times that error squared, over the divisor), plus a term of the size of the smallest double, where u = 2^-53 and r is the longest chain of roundings of one square. The computed winsorized mean differs from the exact one by at most ((1+u)^(d+4)-1) times the average absolute winsorized value plus such a tiny term. The computed covariance of two rows differs from the exact one by a bound of the same form, with the products of the absolute deviations in place of the squares. The computed variance is never negative, so its square root is a finite number, and a variance off by at most e gives a standard deviation off by little more than sqrt(e), and than e/sqrt(v) for v > 0. Equal integers have the computed variance exactly zero, but equal values such as three times 0.1 need not.", "quantifier": "every trimmed array built by the constructor, argsort, row, tree of additions, tree of squarings or products with or without fused operations, and ddof below the number of kept values; finiteness of the computed value is the only condition on the size of the values", "why_tests_cant": "a test compares with a tolerance on one data set with one linear algebra library; the order and the fusing of the operations depend on the processor", "anchors": ["feedx/statistics.py:TrimmedArray.winsorized_mean", "feedx/statistics.py:TrimmedArray.cov", "feedx/statistics.py:TrimmedArray.var", "feedx/statistics.py:TrimmedArray.std"]}
{"id": "C111", "title": "Rounding of standard errors and of the test statistic", "statement": "From two standard deviations in doubles and two sample sizes the code computes the standard errors of both means and of their difference. If the computed standard error of the difference is finite, each of the three differs from the exact one of the model by at most ((1+u)^d-1) times the exact one plus a term of the size of the square root of the smallest double, with u = 2^-53, d = 4 for the difference and 3 for the means, and with equal variances 7 and 6. The computed standard error of the difference is never below that of either mean. Exchanging the arms exchanges the errors of the means and changes no bit of that of the difference. The confidence interval recomputes the standard error from those of the means; for uncorrelated means the result differs from the square root of the sum of the squares of the two doubles by such a bound with d = 3. So interval and test use the same standard error only up to rounding: the claim that they use the same double is false (witness: standard deviations 1 and 1, sample sizes 2 and 3). The computed standard error of the paired test differs from the exact one e by at most 2u/(1-u) |e| plus half the smallest double. Exchanging the arms of the independent test negates the computed statistic without any rounding error. The computed difference of two means is zero exactly if the means are equal doubles, and is positive exactly if the first is larger.", "quantifier": "every pair of doubles as standard deviations, all positive sample sizes whose sum is at most 2^53 (and above 2 with equal variances), both variance assumptions; finiteness of the computed standard error is the only condition on the size of the values; squares are rounded to the nearest double; for the statistic a standard error other than zero", "why_tests_cant": "tests compare with a tolerance on a few samples; a reference implementation in doubles has the same rounding and cannot show its size", "anchors": ["feedx/statistics.py:_two_sample_standard_errors", "feedx/statistics.py:_one_sample_standard_error", "feedx/statistics.py:absolute_difference_confidence_interval", "feedx/statistics.py:ttest_from_stats"]}
