# Formal model of feedx — design

Source: google-marketing-solutions/feedx in /repo (read as text, never run).
Prover: Rocq / Coq 8.16.1, development in `rocq/theories` (logical name `Verif`).

## 1. How the model is built

* One shallow, total, computable Gallina function per Python function, branch by
  branch.  Python exceptions are values: `result A := Ok a | Err e` (`Base.v`).
  Each definition carries a comment with the file and lines it models and what is
  simplified.
* `*_Model.v` – the model only.  `*_Spec.v` / spec sections – small independent
  specifications.  `*_Proofs.v` – lemmas.  `*_Props.v` – the property theorems
  (`Theorem cNN_…`), the non-vacuity `Example`s and `Print Assumptions`.
* Pandas frames are lists of row records (row order kept), group-by is a generic
  sorted group-by (`Frame.v`), dates are integers (nanoseconds where the time of day
  matters), week ids are `Z`, strings are byte strings.
* Numbers.
  - Percentiles / quantiles that decide *how many* items are trimmed are genuine
    IEEE-754 binary64 numbers (Flocq `BinarySingleNaN`), with
    round-to-nearest-even products, because `floor(percentile*n)` is sensitive
    to rounding.
  - Statistical values are Coq reals, extended (type `num`) with +inf, -inf and
    NaN so that division by zero, NaN propagation and comparisons with NaN follow the
    numpy rules.  Rounding error of statistical values is not modelled (except
    for totals and averages in C108, which bound it); signed zeros are not distinguished.
  - Python-float division by zero raises, numpy division by zero yields inf/NaN: the
    model distinguishes the two according to the static types in the source.
* Nondeterminism (argsort tie-breaking, random permutations, bootstrap draws, random
  salts, pandas sampling) is universally quantified: the theorems hold for *every*
  oracle satisfying the library contract stated in the theorem.
* Student's t distribution: a record `TDist` of cdf and ppf with the laws used
  (0<cdf<1, strictly increasing, symmetric, ppf right inverse of cdf on (0,1)); theorems hold for every
  such record, and an inhabitant (the Cauchy law, which is t with 1 d.o.f.) is
  constructed so that no theorem is vacuous.
* MD5 is implemented executably in Coq (and checked on RFC 1321 vectors).

## 2. False properties

Where the code does not do what its documentation says, the property states the
exact boundary; the violated general claim is a theorem with suffix `_refuted` with a concrete witness, next to
the theorem that holds.

## 3. Properties: what is modelled and how it is proved

* **C01 Design constructor accepts exactly the valid designs** — `mk_design` models __post_init__ + _validate_design on binary64; iff against a Prop spec over reals (`B2R`) and Flocq `round`.
* **C02 Derived item counts of a design** — same model; Flocq monotonicity of rounding gives floor/ceil bounds.
* **C03 YAML write/load round trip** — file store = finite map path -> document; document = key/value list produced by `asdict`; PyYAML's text layer (dump then safe_load = id on these scalar values, keys sorted) is trusted.
* **C04 YAML load rejects inconsistent documents** — `load_doc` models key popping, `cls(**raw)` keyword matching and the comparison.
* **C05 design_id ignores the coinflip salt and nothing else** — text of repr modelled; float repr is an oracle assumed injective and free of commas; md5 executable.
* **C06 Coinflip is a deterministic 0/1 function of salt and item id** — executable MD5 and Coinflip; parity proved by digest structure.
* **C07 Printed washout weeks match the analysed washout weeks** — washout list of __str__ and time-period labels both modelled; interval arithmetic (lia).
* **C08 Design enumeration is sound, complete and ordered** — product loop as list functions; equality with a declarative comprehension + validity from C01.
* **C09 Crossover-free enumeration and the omitted washout** — `None` arithmetic modelled as TypeError; non-short-circuit `&`.
* **C10 One invalid candidate aborts the enumeration** — result monad loop; iff over all candidate combinations; witness.
* **C11 Minimum start week leaves room for every candidate** — Z lists, max/min; lia.
* **C12 Regular experiment time periods** — label function on Z; iff characterisation.
* **C13 Crossover time periods partition the runtime** — label function on Z; iff characterisation, counts and order.
* **C14 Pivoted values are weekly averages per item and period** — frames as row lists; group-by sum; sums as extended numbers / reals.
* **C15 Pivoting leaves the caller's data unchanged, unless it fails** — state-passing model of the mutable frame; failure path keeps the column.
* **C16 Plotted crossover spans match the labelled periods** — dates as Z days; equality of covered days.
* **C17 Week ids and week starts** — Z floor division in ns.
* **C18 Weekly grouping conserves complete weeks exactly** — frame model with generic group-by; sums.
* **C19 Frequency detection** — distinct sorted dates; gaps.
* **C20 Filling missing rows completes the grid** — cross join + left join on row lists; multiset facts.
* **C21 Filling is idempotent and keeps totals** — from C20.
* **C22 Downsampling keeps whole items** — sample oracle: any duplicate-free sublist of the requested size; round-half-even on binary64 product.
* **C23 Column standardization** — columns as association list name -> column; rename then select.
* **C24 Skipping a validation check affects only that check** — wrapper model; iff.
* **C25 Duplicate / missing row check** — group-by counts; iff + witness.
* **C26 Date spacing check** — gaps of sorted distinct dates.
* **C27 Week id consecutiveness check** — any date-sorted permutation; induction.
* **C28 Null, finiteness and sign checks** — pointwise; iff.
* **C29 Design date-range check** — Z; iff + witness.
* **C30 Item-count, arm-uniqueness and coinflip checks** — iff.
* **C31 Sample ratio check counts distinct items per arm** — binomial test as an oracle.
* **C32 Validation entry points are the conjunction of their checks** — sequencing of checks in result monad; iff and first-failure.
* **C33 At-least-one metrics** — pointwise on rows.
* **C34 Prepared historical data is a complete weekly grid** — composition of C17-C20, C22, C32.
* **C35 Prepared experiment data covers exactly the assigned items** — composition of merges, fill, labels.
* **C36 Outlier trimming removes exactly the extremes** — rank by any sorting permutation; floor on binary64.
* **C37 Treatment assignment covers the trimmed items once** — stateful design (salt), composition with C36.
* **C38 Assignment then validation agree** — composition of C37, C30, C03.
* **C39 Lognormal sampler has the requested moments** — exp/ln identities in R against the closed-form lognormal moments (closed form trusted as definition of the law).
* **C40 Beta sampler: mean is right, standard deviation is not** — closed-form beta moments; field arithmetic; witness.
* **C41 Synthetic data frame** — draw oracles with their ranges.
* **C42 Demo effects touch exactly the treated cells** — pointwise on rows.
* **C43 Trimmed array size** — Flocq; 2*floor(q n) < n.
* **C44 Trimmed array keeps the middle order statistics** — any argsort; sorted permutation facts.
* **C45 Winsorized moments** — sums over lists of reals.
* **C46 Winsorized covariance is a covariance matrix** — sums; sum of squares.
* **C47 Reordering, shifting and scaling samples** — uniqueness of sorted lists.
* **C48 CUPED without trimming** — sums in R; NaN branch via extended numbers.
* **C49 CUPED with trimming never hurts** — argmin-free proof: the branch compares variances.
* **C50 P-values are coherent** — TDist laws.
* **C51 Significance agrees with the absolute confidence interval (independent test)** — TDist laws; monotone inverse.
* **C52 Significance agrees with the absolute confidence interval (paired test)** — field/sqrt identities.
* **C53 Swapping the two samples** — field.
* **C54 Changing the unit of the metric** — field/sqrt.
* **C55 Degrees of freedom** — real inequalities.
* **C56 Relative confidence interval is Fieller's set in the bounded case** — quadratic inequality analysis.
* **C57 Relative confidence interval in the unbounded cases** — quadratic analysis; numeric witness by interval/field reasoning.
* **C58 Relative interval depends on the metric's unit for tiny variances** — threshold comparison; witness.
* **C59 When a relative difference is reported** — branch analysis; ZeroDivisionError as value; witness.
* **C60 Ratio metrics use the delta method** — field; quadratic form; witness.
* **C61 Minimum detectable effect** — TDist laws.
* **C62 Crossover alignment** — sums in R.
* **C63 How much of a synthetic effect a crossover analysis recovers** — sums in R.
* **C64 How much of a synthetic effect a regular analysis recovers** — shift equivariance C47.
* **C65 Analysis significance level** — model passes the default alpha; two designs witness.
* **C66 Analysing many metrics** — map over metric list in the result monad.
* **C67 Simulation start weeks stay inside the data** — composition with C11.
* **C68 Bootstrap sampling** — draw oracle.
* **C69 Random simulated assignment and column name round trip** — string functions join/strip/split executable; iff.
* **C70 Synthetic effect application** — pointwise.
* **C71 Simulation state machine** — state machine with arbitrary back-end; induction on call sequences.
* **C72 Robustness check thresholds and rates** — lists of reals.
* **C73 Averaged metric statistics** — sums; sizes from C36/C43.
* **C74 Displayed p-values and colours** — branch analysis on reals.
* **C75 Distribution curves** — sorted sums.
* **C76 Error bars with infinite bounds** — branch analysis; witness.
* **C77 Per-date CUPED plot** — per-group C48.
* **C78 Prepared experiment data stays inside the experiment** — inequalities on dates and weeks along the experiment pipeline; refuted variant with a short history.
* **C79 Variance behind the minimum detectable effect of a crossover** — sums in R; Jensen-type inequality for the averaged per-week variances (sum of squares), witness for the gap.
* **C80 Summary of the analyses and its display** — tables as lists of dictionaries; executable string functions; permutation of rows for any sort_values.
* **C81 Plot of a metric over time** — per-date sums over the rows; NaN-skipping averages in extended reals.
* **C82 Plot of the history of a metric** — weekly totals by induction on the rows; Lorenz curve as maximum over sublists of k items; witness for unbalanced panels.
* **C83 From the raw rows to the results** — composition of C20, C33, C35, C14 and C66: the tested numbers as sums over the raw rows.
* **C84 Warnings about constant samples** — boolean reflection of np.isclose; variance zero iff all values equal.
* **C85 Simulated effects are found** — composition along validate_design with an arbitrary generator state; shift equivariance (C47, C63, C64) and success of every step by totality lemmas.
* **C86 Formatted table of results** — exact decimal rounding of binary64 numbers in integer arithmetic; reading functions in Table_Spec.v.
* **C87 The designer's journey** — composition of C18-C22, C34, C08, C11, C71, C85, C37 and C38 through one panel invariant.
* **C88 From raw data frames to prepared data** — the two entry points from raw frames with conversions as parameters; equality with the pipelines of C34 and C35 on the table of the converted columns.
* **C89 What stops a regular experiment** — the independent test by cases (empty sample, zero control mean, else) and CUPED as a total function; characterisation by trimmed means (C59); the simulated tables of C85 for regular designs, the drawn arms as the arms of the table.
* **C90 The text printed for a design** — text as a join of lines over the design; specification as lines after a tab and numerals; labels of the analysis (C12, C13) for the washout weeks; exact decimal rounding (C74) for percentages; texts of the unit tests as examples.
* **C91 What the results of a concluded experiment depend on, and their sample sizes** — both runs are rewritten with the end-to-end theorem (C83) as tests of totals per item over a sorted list of items, which is unique; totals over weeks split into weekly totals; sizes from the trimming counts, floor of rounded products bounded by their real values; tables of ones and a grid of items and dates as witnesses.
* **C92 The deep dive shows the simulations behind the reported rates** — the figure is rewritten as four histograms, each of which exists iff its column has a number and no infinity; bars counted by induction on sorted edges; p-values bounded by the laws of the distribution function; an idle metric makes all paired differences zero, so the statistic is 0/0 (via C62 and C85); a panel of zeros as witness.
* **C93 The analyzer's journey from the form to the figures** — texts by induction on the string; the frame of prepared rows has exactly the requested columns (from C35 and C88), so the analysis of C83 applies or stops at the missing columns; extended to ratios with the paired test on pairs of totals; plots by C81 on the rows with numbers; days by the progression of C26 and the labels of C12 and C13, counted as an interval of indices.
* **C94 Trimming resists as many wrong values as it removes on a side** — counting: an upward closed property failing at most k times holds for all order statistics from k on, likewise downwards; so the kept values are finite and in range; sorted lists inherit a pointwise order; the moments of finite kept values computed directly.
* **C95 The minimum detectable effect is detected with the stated power** — significance is a comparison of the estimate with the critical value (C51); insert the value of the effect (C61) and the symmetry of the distribution.
* **C96 The unit of the covariate does not matter for CUPED** — the first step is identical, so the same columns are kept; covariances are bilinear over the kept positions whatever the first row holds, so the coefficient is divided by the factor; the shift of the values cancels with their trimmed mean.
* **C97 When the analysis of a regular experiment gives results** — the outcome of each metric follows from the cases of the independent t-test (empty arm, zero control, result), with CUPED and ratios always running; the outcomes are combined over the list by induction; without pretest the compared values are the raw weekly averages of C83, rearranged by arm.
* **C98 The adjusted plots of the notebook, from the raw values** — the prepared rows form a complete grid of assigned items and observed dates; on such a grid the per-date adjustment of C81 is rewritten over the items by permutation invariance of averages and codeviations; the coefficients of the pretest dates add up to codev(pre, pre) / sqdev(pre) = 1 by exchanging the sums over dates and items, so the adjusted differences cancel; constant totals make every date empty, hence no treatment column
* **C99 The confidence intervals invert the tests and have their level** — trimmed means follow a shift of the sample and winsorized variances do not change, so the test of the shifted sample is the test of the estimate less the shift at the same standard error; C51 and C52 turn its significance into the bounds. For the coverage the bounds are compared through the cdf, which is increasing; for the relative interval Fieller's set of C56 is split at the estimate by the sign of m1 - (1 + lift) m2
* **C100 What the CUPED adjustment does to the test of a regular experiment** — the analysis is the test of the adjusted values (C64); without trimming C51 gives its standard error from the squared deviations, which expand by bilinearity of the codeviation. For arms with the same pretest average the codeviations of the arms add up to that of all items, so the squared error falls by codev^2 / (sqdev pre n (n - 1)); the refuted variants are computed on four and six items
* **C101 Ratio metrics with constant denominators, and numerators that average zero** — constant denominators have no variance and no covariance with the numerators over the kept indices, so the delta method of C60 divides the variance by the squared denominator; C54 gives the moments of the divided values. The paired correlation is compared case by case, with Cauchy-Schwarz where a variance is zero. A numerator average of zero makes the variance 0 times an infinite or undefined number, and the NaN is followed through the standard errors
* **C102 Ratio metrics compare ratios of totals of the raw rows** — C83 gives the values of the analysed table as raw weekly totals divided by the number of weeks; without trimming the averages of C54 are totals divided by the number of items, and both divisions cancel in a ratio of two averages over the same items and weeks. For crossovers the alignment of the periods (C62) is summed over the two groups of items
* **C103 A ratio metric without any numerator in one arm** — rows that are all zero give totals of zero, so by the lemmas behind C102 the tested numerators average zero; C101 gives the NaN of the independent test, and the same NaN of one of the two variances is followed into the bounds of the paired test for any denominators
* **C104 Regular experiments estimate the average effect without bias, with a conservative error** — induction over the number of items gives the sums of v.c and (v.c)^2 over all 0/1 vectors v with k ones; the averages and squared deviations of both groups are expressed by them, which gives the mean and the variance of the difference and the mean of the squared errors; vectors are grouped by their number of ones for the coins; the witness has one item with an effect that is always trimmed
* **C105 Crossover experiments estimate a share of the average effect** — the estimate is a linear function of the vector of the items treated first, for a fixed number of them; the sums over the vectors come from C104; over all vectors the number of ones and its square are summed by induction
* **C106 Crossover standard errors are on average slightly too small** — for equal groups the estimate is half of the contrast of C104 between the gains of the items treated first and the negated gains of the others, and the squared deviations of the differences are those within the two groups; both averages come from C104
* **C107 The CUPED adjustment shrinks the estimates on average** — by C100 the estimate is the contrast of C104 less the slope times the contrast of the pretest values; slope and contrast are linear in the assignment vector, so the sum of their product over all vectors is a mixed second moment, obtained from the squares by polarisation; the pretest deviations add up to zero, which leaves one term
* **C108 Totals and averages are exact for counts and nearly exact otherwise, in any order** — an order of additions is a binary tree over doubles (Flocq); sums of integers below 2^53 are representable, so rounding is the identity by induction on the tree; otherwise the relative error of one addition (Flocq's Plus_error) accumulates along the depth; one division gives the averages. For compensated sums the invariant bounds the compensation and the error of total minus compensation, with relative errors of the four operations of a step
* **C109 What the eleven rows of the analysis notebook say** — instances of C102 for the eleven metrics of the notebook, found by name in the list of results (names are distinct); the added columns are indicators (C35), whose totals count rows; the share needs one row per item and week, by induction over the weeks.
* **C110 Rounding of winsorized means, variances, covariances and standard deviations** — a predicate `near d t computed truth size` (d roundings in a row, t of them possibly below the normal doubles) is closed under exact sums, scaling and one more rounding; induction over the trees of additions and squarings; finite results have finite operands, so no bound against overflow is needed; the squares about the rounded mean exceed those about the exact mean by n times the squared distance.
* **C111 Rounding of standard errors and of the test statistic** — the closure lemmas of C110 up to the square root; a square root of a number known up to (g-1) v + e is known up to (g-1) sqrt(v) + sqrt(e); rounding is monotone, so sums of non-negative doubles are not below their terms; addition of doubles commutes bit by bit; rounding to nearest even is odd, and a rounded sum of two doubles is zero only if the sum is; evaluation for the counterexample.

## 4. Which code is modelled

Each model file, with its own statement of scope and simplifications (the comments in
the files give the lines of every definition):

* `Design_Model.v` — Model of /repo/feedx/experiment_design.py.
* `Periods_Model.v` — Model of /repo/feedx/experiment_analysis.py:34-197 (time periods).
* `Enumerate_Model.v` — Model of /repo/feedx/experiment_simulations.py:40-193 (design enumeration).
* `Rows_Model.v` — Model of /repo/feedx/data_preparation.py:497-719: filling, downsampling, week ids and weekly grouping. Representation. A data set is the list of its rows; a row carries the item id, the date and the metric values (one [num] per metric column, a missing value being NaN). Item ids are strings and dates are nanoseconds since an epoch, as produced by standardize_column_names_and_types (numpy datetime64[ns]); missing ids / dates (None, NaT) and non-numeric metric columns are outside the model, and so are the dtype conversions "astype(original_dtype)" (integer columns behave like their real values).
* `Checks_Model.v` — Model of /repo/feedx/data_preparation.py:35-88 and 722-1333: validation checks, the two validation entry points and the "at least one" metrics. Representation. A check looks at a few columns of the data; it gets them as lists (one entry per row). Item ids and dates are not missing here (see Rows_Model); the cells used by the null check may be. A check returns [Ok failed] or raises. The printed messages and the dtype tests (lines 789-792 and 821-824, "date column must be datetime", "week id must be integer") are not modelled: the columns have these types by construction.
* `Pivot_Model.v` — Model of /repo/feedx/experiment_analysis.py:200-460 (pivoting the weekly data). [pd.pivot_table(index, columns, values, aggfunc="sum", fill_value=0)] of pandas: rows with a missing period (or index) value are dropped by the groupby; each group is summed skipping missing values; groups whose sums are all NaN (infinities of both signs) are dropped; the distinct periods become columns, the columns are sorted by (metric, period) and absent or NaN cells become 0. metric_columns is assumed to hold no name twice.
* `Standard_Model.v` — Model of /repo/feedx/data_preparation.py:365-494 [standardize_column_names_and_types].
* `Assign_Model.v` — Model of /repo/feedx/data_preparation.py:1627-1800: outlier trimming and treatment assignment. Representation. trim_outliers sees a data set as the list of its rows and the value of the order_by column of each row; the index labels of the rows are distinct (they are in every call in the package), so a row is identified by its position. The historical data used for the assignment is the list of its rows: item id, week id and primary metric.
* `Pipeline_Model.v` — Model of /repo/feedx/data_preparation.py:1336-1624: the two preparation pipelines, composed from the models of their steps. The pipelines start here after standardize_column_names_and_types (modelled on its own in Standard_Model): the raw data is the list of standardized rows. The choice of the metric columns (lines 1389-1405 and 1512-1533) only decides which columns those rows have; the calls from the raw frames on are modelled in Entry_Model.
* `Trimmed_Model.v` — Model of /repo/feedx/statistics.py:24-255: TrimmedArray. Representation. An array is the list of its rows (np.atleast_2d turns a one-dimensional array into one row); all rows have the same length. Values are [num]: real numbers, infinities and NaN, float rounding ignored. [argsort] is np.argsort (default, unstable sort): a parameter everywhere, see Trimmed_Spec.v for what is assumed about it. The check of the number of dimensions (lines 73-74) is outside the model; the values returned for one-dimensional arrays as Python floats are the single elements of the lists below.
* `Cuped_Model.v` — Model of /repo/feedx/statistics.py:258-335: apply_cuped_adjustment.
* `Stats_Model.v` — Model of /repo/feedx/statistics.py:338-1326: t-tests, confidence intervals, minimum detectable effects. Representation. Numbers are [num] (reals, infinities, NaN; rounding ignored, numpy division). alpha, power are real numbers. Student's t distribution (scipy.stats.t) is a parameter, the record [tdist]: the two functions of scipy together with the facts used about them.
* `Synth_Model.v` — Model of /repo/feedx/data_preparation.py:91-362 (samplers, synthetic data, demo effects).
* `Analysis_Model.v` — Model of /repo/feedx/experiment_analysis.py:463-836 (analysing metrics) and of /repo/feedx/experiment_simulations.py:307-397 (synthetic effects on pivoted data).
* `Simulation_Model.v` — Model of /repo/feedx/experiment_simulations.py:196-304 and 400-1183: bootstrap sampling, random assignment of simulated data and the class SimulationAnalysis. The random number generator is a state of an arbitrary type with one operation per kind of draw; scipy's kstest, binomtest and ttest_1samp are arbitrary functions. The progress bar is not modelled.
* `Display_Model.v` — Model of the formatting of experiment results, feedx/experiment_analysis.py:839-905. The numbers are the binary64 numbers of the results table (in [Analysis_Model] the same values are extended reals). The 'g' format of [_format_absolute_effect_ci_string] (lines 851-862) and the assembling of the table (lines 908-1052) are in Table_Model.v.
* `Curves_Model.v` — Model of the two distribution curves of feedx/plotting.py:72-144: the points that are drawn. Values are extended reals (sums of doubles are taken without rounding); axes, labels and colours are not modelled.
* `Bars_Model.v` — Model of feedx/plotting.py:508-582 (error bars) and 585-737 (plot_effects): which bars are drawn, and the errors. The arrays are extended reals; the four arrays of one call have the same length, so they are one list here. matplotlib's Axes.errorbar is modelled as: ValueError when a length is negative ("'xerr' must not contain negative values"), otherwise the bars are drawn. Positions on the y axis, styles, ticks and legends are not modelled; metric names are lowered for ASCII letters only.
* `Cupedplot_Model.v` — Model of feedx/plotting.py:316-367: _add_cuped_adjusted_metric_per_date.
* `Summary_Model.v` — Model of the summary of simulation analyses, feedx/experiment_simulations.py:1117-1319. The table is the list of its rows, a row being the index value (the design id) and the dictionary of the other columns. Floats of the design are binary64 numbers, the estimates are [num] as in Simulation_Model. Not modelled: the colours of the bars and the rendering of the styled table; [str.title] is the ASCII one.
* `Overtime_Model.v` — Model of feedx/plotting.py:370-505: the values that plot_metric_over_time draws. The input is the list of column names of the frame and the contents of the five columns named by the arguments, one record per row. Simplified: the initial sort by date is left out (the drawn values are sums over rows, taken here without rounding); arms are integers or null; matplotlib itself (colours, legends, titles) is not modelled. The shaded spans are in Periods_Model.
* `History_Model.v` — Model of feedx/plotting.py:147-209: the values drawn by plot_metric_history. Titles and axes are not modelled; sums are taken without rounding.
* `Journey_Model.v` — The data frame that passes from the preparation to the analysis of an experiment: feedx/data_preparation.py:1574-1624 returns it, feedx/experiment_analysis.py:774-836 reads it.
* `Table_Model.v` — Model of the formatted table of results, feedx/experiment_analysis.py:851-875 and 908-1052. The numbers are the binary64 numbers of the results table, as in Display_Model.v. Not modelled: the styles of the headers and the colours under the mouse (lines 1004-1051); the colours of the rows are in Display_Model.v.
* `Designer_Model.v` — Model of /repo/notebooks/01_experiment_designer.ipynb, cells 20, 25, 27, 31 and 39: the way from the raw rows to the exported experiment, composed from the models of the functions it calls. The dictionary of the analyses by design id is a list in the order of the designs here: two equal candidates give two entries instead of one. The parsing of the form fields, the printed and plotted output and the storing of the files (modelled in Design_Model) are left out.
* `Entry_Model.v` — Model of the whole of /repo/feedx/data_preparation.py:1336-1624, from the raw data frames of the user: the choice of the columns, their standardization, and the steps of Pipeline_Model. The library conversions are parameters: [std_parser] as in Standard_Model, [to_float] is Series.astype(float) and [to_int] is Series.astype(int). Dates are assumed to be parsed to instants (nanoseconds), item ids to texts and metrics to numbers; another cell would be read as the default below, the theorems assume that there is none. Of several errors in one call the one reported can differ from Python's.
* `Text_Model.v` — Model of the text of a design, /repo/feedx/experiment_design.py:209-308 ([ExperimentDesign.__str__]). Floats appear through [frepr] (str of a float is its repr) and, in percentages, through the format of Display_Model.v.
* `Deepdive_Model.v` — Model of /repo/feedx/plotting.py:31-71 and 212-313: the histograms of a validated design. Colours, line styles, transparency and the layout of the figure are not modelled. Axes.hist is modelled as in matplotlib with numpy's histogram and bins="auto": missing values are left out, an infinite value or a column of missing values only is a ValueError (the range is not finite), and the heights of the bars are the numbers of values between the edges, the last bar including its right edge. The edges numpy chooses are an arbitrary function of the values; that so many bins may be chosen that the memory does not suffice is not modelled.
* `Analyzer_Model.v` — Model of the steps of /repo/notebooks/02_experiment_analyzer.ipynb after the design is loaded: the form (lines 807-873 for a sheet, 953-1019 for a file; the same statements), the number of days per period (1372-1378), the plots over time (1524-1537), the metrics (1582-1601), the analysis (1671-1678), the table of projections (1996-2008) and the figure of the effects (2058). The call of the preparation in the form is [experiment_entry] of Entry_Model; here the later steps start from the rows it returns. Reading the sheet or the file is not modelled.
* `Sums_Model.v` — C108: totals and averages of doubles, added up with rounding.
* `Vars_Model.v` — C110: winsorized means, variances and standard deviations of doubles, with rounding.
* `Covs_Model.v` — C110: winsorized covariances of doubles, with rounding.
* `Stderr_Model.v` — C111: the standard errors of the independent test, with rounding.
* `Statistic_Model.v` — C111: the paired standard error and the test statistic, with rounding.

Supporting files: `Base.v` (result monad), `F64.v` (binary64 on Flocq), `MD5.v`,
`Num.v`/`NumOrd.v` (extended reals with NaN), `Frame.v`/`ListLib.v`/`Rank.v` (row lists,
group-by, ranks), `Moments.v` (sums, means, variances), `*_Spec.v` (vocabulary of the
statements), `*_Proofs.v` (lemmas).

### Not modelled

* matplotlib / seaborn rendering (colours, legends, layout; what is drawn is modelled), the styles of
  the HTML tables beyond the texts, captions, hidden columns and check colours.
* notebook code other than the calls composed in `Designer_Model.v`, `Journey_Model.v` and `Analyzer_Model.v`:
  form fields, authentication, reading and writing of sheets and files.
* the random number generators, scipy's kstest / binomtest / ttest_1samp, Student's t
  distribution: parameters of the theorems, with the stated laws only.
* PyYAML's text syntax (a document is its key/value list), pandas' dtype inference (dtypes
  enter as flags where the code branches on them), printed messages.
* floating-point rounding of statistical values (they are exact reals with infinities and
  NaN), apart from totals and averages (C108), winsorized means, (co)variances and standard deviations (C110) and the standard errors and the statistic (C111, where squares are taken as rounded to nearest).  Percentiles, item counts, displayed numbers and p-values are binary64.

### Simplifications that theorems depend on

* Lognormal and beta laws are given by their textbook moments (C39, C40).
* Theorems about samples without variance (standard error zero, p-value NaN) are about exact
  reals.  In doubles they hold for equal integers; equal values such as three times 0.1 can have
  a tiny computed variance instead (`c110_equal_values_have_no_variance_refuted`).
* Python's `%g`/fixed formatting is modelled as exact rounding, ties to even (C74, C86).
* `lower`, `title` and friends are the ASCII ones (C69, C76, C80).
* Frames have no column name twice where a theorem says so (`NoDup`); pandas' behaviour for
  repeated labels is not modelled.  Row labels are distinct in trim_outliers; C14 and C68
  show that the callers provide this.
* alpha and power are finite numbers in the minimum detectable effect.
* `sort_values` and `list(set(..))` are arbitrary functions with the stated contract.
* the tolerances 1e-5 and 1e-8 of `np.isclose` are taken as the exact decimals (C56, C84).
* matplotlib's errorbar is modelled as refusing negative lengths (C76).
* `Axes.hist` leaves out missing values and refuses columns with an infinite value or without a
  number; numpy's bin edges are an arbitrary function of the values (C92).
* plot_metric_over_time's initial sort is left out; arms are integers (C81).
* the form of the analysis notebook is a record of its texts; white space is the ASCII one (C93).
* the dictionary of analyses by design id is a list in the order of the designs (C87).

### Tests of the model

`Conform_Data.v`, `Conform_Stats.v` and `Conform_Analysis.v` repeat the unit tests of
/repo/feedx whose inputs and results are written out there and do not need the t distribution
or a random generator, and check that the model gives the results the tests expect; the printed
texts are repeated in `Text_Props3.v`.  They are evidence for the faithfulness of the model, not
theorems.

### How to read seeded/LOG.jsonl

Each line is one edit of the model in a scratch copy, rebuilt with failing proofs admitted so that later
files are still checked.  `proofs_failed_first` are the proofs that no longer went through.
`theorems_failed` are the property theorems among them and those that use one of them, as shown by
`Print Assumptions`.  A theorem listed there was no longer established for the edited model; the log does not
show that its statement had become false, since a proof script can break, or a lemma it uses can become
false, while the statement still holds.  Many edits were rebuilt only for the files about the claim they
aim at, so other theorems may have failed as well.

## 5. Trusted base

* Coq 8.16.1's kernel (including its `vm_compute` conversion), the Coq standard library and
  Flocq as definitions used in models and specifications.
* the faithfulness of the models to the Python code, as delimited in section 4.
* the axioms below, all from the Coq standard library.  No axiom is added by this
  development or by another library; there is no `Admitted`, no functor or module type, and
  no kernel check is switched off.
  - `ClassicalDedekindReals.sig_forall_dec`, `ClassicalDedekindReals.sig_not_dec` and
    `FunctionalExtensionality.functional_extensionality_dep`: the construction of the reals;
  - `Classical_Prop.classic`: used by Flocq's and the standard library's lemmas on reals.

## 6. Print Assumptions per theorem

Every `*_Props*.v` file ends with `Print Assumptions` for its theorems.  Grouped by result:

**Closed under the global context** (55 theorems)

* Design_Props: c05_hashed_text_determines_design, c06_coinflip_is_0_or_1, c06_coinflip_is_md5_parity, c06_same_salted_id_same_arm, c06_salt_rejected_iff_empty, c06_random_salt_accepted_iff_nonempty
* Enumerate_Props: c11_minimum_start_week_is_least_with_room, c11_raises_otherwise
* Rows_Props: c17_week_id_and_start, c17_given_start_labels_every_row, c17_default_start_is_earliest_date
* Checks_Props: c24_wrapped_check_raises_iff_failed_and_not_skipped, c24_exception_in_check_is_not_skippable, c25_passes_iff_uniform, c25_empty_data_raises, c25_with_equal_item_sets_passing_means_exactly_once, c25_passing_means_every_item_once_per_date_refuted, c26_spacing_check_passes_iff, c26_midnight_dates_form_a_progression, c27_passing_means_ids_consecutive_and_monotone, c27_passes_iff_when_dates_have_one_week, c27_generated_ids_pass, c28_no_nulls_iff, c28_finite_iff, c28_missing_metric_raises, c29_passes_iff_range_is_covered, c30_number_of_items_iff, c30_unique_arm_iff, c30_coinflip_iff, c30_coinflip_implies_unique_arm, c30_missing_salt_raises
* Standard_Props: c23_output_columns, c23_raises_iff, c23_shared_input_column_keeps_both_refuted
* Sim_Names_Props: c69_name_round_trip, c69_other_names_are_lost, c69_every_name_survives_refuted
* Sim_Boot_Props: c67_start_weeks_have_room, c68_rejects_exactly_the_reserved_names, c68_copies_of_rows_with_fresh_ids, c68_the_drawn_rows, c68_reserved_names_are_never_seen_in_a_simulation, c69_every_item_gets_one_arm, c69_plain_names_come_back
* Summary_Props: c80_hidden_columns_are_the_validation_results, c80_check_colours
* Table_Props: c86_thousands, c86_default_header
* Analyzer_Props: c93_texts_of_the_form, c93_what_the_form_requests
* Analyzer_Props2: c93_five_metrics_are_projected
* Gaps_Props: c76_capital_letters_are_lowered
* Random_Props: c104_assignments
* Gaps_Props4: c05_shown_text_determines_the_design_and_its_salt
* Gaps_Props5: c80_the_titles

**`sig_forall_dec`** (11 theorems)

* Rows_Props: c18_weekly_data_is_returned_unchanged, c19_raises_iff_neither_daily_nor_weekly, c20_filled_grid, c20_size_without_duplicates, c20_missing_columns_raise, c21_filling_is_idempotent
* Pivot_Props2: c14_rows_are_read_cell_by_cell
* Analysis_Props: c70_effect_can_be_applied_iff, c70_effect_in_a_crossover, c70_effect_in_a_regular_experiment
* Sim_State_Props: c72_what_is_tested

**`sig_forall_dec`, `functional_extensionality_dep`** (67 theorems)

* Rows_Props: c18_daily_data_gives_complete_weeks_with_exact_totals, c18_totals_of_complete_weeks_are_conserved, c19_single_date_data_comes_back_empty, c19_weekly_data_is_never_grouped_refuted, c21_totals_are_kept
* Checks_Props: c28_non_negative_iff, c28_together_values_are_finite_and_non_negative, c31_srm_tests_distinct_items, c31_duplicated_rows_do_not_matter, c31_other_arms_are_ignored, c32_historical_validation_is_the_conjunction, c33_new_column_is_indicator, c33_fresh_names, c33_missing_source_raises
* Pivot_Props: c14_unlabelled_rows_do_not_matter, c15_successful_pivot_leaves_the_frame_unchanged, c15_successful_calls_are_independent, c15_argument_errors_leave_the_frame_unchanged
* Stats_Props: c50_p_values_are_coherent, c50_other_alternatives_are_rejected, c55_degrees_of_freedom, c61_minimum_detectable_effect
* Ratio_Props: c60_variance_of_a_ratio, c60_variance_of_a_ratio_not_negative, c60_variance_with_zero_numerator_refuted
* Synth_Props: c39_bad_parameters_rejected, c42_effects_on_treated_rows_only, c42_zeros_stay
* Analysis_Props: c62_pairs_raw_values, c62_demeaned, c62_common_period_effects_cancel, c62_common_period_effects_cancel_without_demeaning_refuted
* Sim_State_Props: c71_all_pass_is_the_conjunction, c72_check_passes_iff_p_value_at_threshold, c72_rates_are_fractions_of_significant_simulations
* Curves_Props: c75_cumulative_curve, c75_lorenz_points, c75_lorenz_shape, c75_lorenz_zero_total_has_no_finite_point
* Bars_Props: c76_drawn_iff_every_side_fits, c76_drawn_bars_are_finite, c76_finite_intervals_are_drawn_exactly, c76_single_interval, c76_failures_are_value_errors, c76_infinities_are_handled_refuted, c76_plot_effects_succeeds_iff, c76_unbounded_primary_metric_fails
* Summary_Props: c80_one_design_is_described_by_the_caption
* History_Props: c82_weekly_totals, c82_balanced_data_lorenz_curve, c82_lorenz_curve_shows_captured_share_refuted
* Designer_Props: c87_every_panel_passes
* Deepdive_Props: c92_every_number_is_in_one_bar, c92_rates_are_shares_of_the_simulations
* Analyzer_Props2: c93_figure_finds_the_primary_metric_iff, c93_designs_for_cost_and_value_have_no_figure
* Power_Props: c95_effects_of_this_size_are_detected_with_the_power, c95_estimates_that_reach_it_are_significant, c95_significant_estimates_reach_it_refuted
* Gaps_Props: c93_figure_is_drawn_iff, c93_figure_without_relative_differences, c77_missing_values_count_nothing, c82_missing_values_count_nothing
* Gaps_Props3: c82_rows_without_key_are_left_out
* Gaps_Props5: c50_without_standard_error, c50_no_degrees_of_freedom_no_p_value, c80_display_of_a_table_without_a_parameter_fails

**`sig_forall_dec`, `sig_not_dec`, `functional_extensionality_dep`** (18 theorems)

* Stats_Props: c55_standard_errors, c61_standard_errors_of_the_designs
* Fieller_Props: c56_bounded_interval_is_fiellers_set, c56_agrees_with_the_absolute_interval, c57_lower_bound_at_least_minus_one, c57_upper_not_below_lower, c57_interval_is_fiellers_set, c58_independent_of_the_unit
* Ratio_Props: c60_variance_of_a_difference_of_ratios, c60_correlation_of_the_ratios, c60_independent_arms
* Synth_Props: c40_beta_mean, c40_beta_variance, c40_beta_standard_deviation_refuted
* Sim_Estimate_Props: c73_minimum_detectable_effect
* Overtime_Props: c81_band_is_too_narrow
* Inversion_Props: c99_relative_interval_covers_the_true_lift
* Gaps_Props5: c51_intervals_at_extreme_levels

**`sig_forall_dec`, `sig_not_dec`, `classic`, `functional_extensionality_dep`** (341 theorems)

* Design_Props: c01_constructor_accepts_exactly_valid_designs, c01_invalid_parameters_raise, c02_derived_counts, c02_counts_ordered, c02_trim_is_floor_or_ceiling, c02_exact_floor_refuted, c03_yaml_round_trip, c03_last_write_wins, c03_unwritten_path_fails, c04_load_iff_document_consistent, c04_tampered_counts_rejected, c05_design_id_ignores_salt, c05_equal_ids_mean_equal_designs_or_md5_collision
* Periods_Props: c12_regular_periods, c12_add_time_period_column, c13_crossover_periods, c13_equal_positive_test_periods, c07_printed_washout_weeks_are_labelled_washout, c07_printed_swap_week_starts_second_half, c16_plot_spans_match_labels, c16_plot_start_date
* Enumerate_Props: c08_returns_wanted_designs_in_order, c08_design_returned_iff, c09_washout_value_irrelevant, c09_omitted_washout_returns_only_nothing, c09_omitted_washout_raises, c09_crossover_free_enumeration_refuted, c10_returns_iff_every_constructed_design_is_valid, c10_invalid_candidates_are_filtered_refuted
* Rows_Props: c22_downsampling_keeps_whole_items, c22_downsampling_raises_iff
* Checks_Props: c24_unknown_skip_name_is_rejected_first, c24_skipping_affects_only_that_check, c29_complete_daily_range_required_refuted, c32_experiment_validation_is_the_conjunction, c32_skipped_checks_cannot_fail_refuted
* Checks_Props2: c24_the_names_that_may_be_skipped
* Pivot_Props: c14_values_are_weekly_averages, c14_fails_iff_no_test_week, c15_failed_pivot_blocks_the_frame, c15_failed_calls_are_atomic_refuted
* Assign_Props: c36_succeeds_iff_percentiles_valid, c36_removes_exactly_the_extremes, c36_kept_values_do_not_depend_on_tie_break, c36_nothing_to_trim_returns_the_data, c36_size_with_missing_values_refuted, c36_some_row_is_kept_refuted, c37_arms_are_coinflips_of_the_stored_salt, c37_without_trimming_all_items_once, c37_with_trimming_items_between_the_extremes, c37_second_call_reproduces_arms, c37_second_call_same_data, c37_failed_call_leaves_design_refuted, c37_fails_only_on_sample_ratio_mismatch, c38_assigned_items_pass_validation, c38_all_items_recent_needed_refuted
* Pipeline_Props: c34_daily_data_gives_one_row_per_kept_item_and_complete_week, c34_weekly_data_is_passed_through, c34_duplicated_daily_rows_are_rejected_refuted
* Experiment_Props: c35_rows_are_assigned_items_times_observed_dates, c35_one_row_per_assigned_item_and_date, c78_prepared_dates_lie_in_the_experiment
* Trimmed_Props: c43_accepts_exactly_quantiles_below_half, c43_trims_floor_of_quantile_times_n, c43_length_assertion_never_fires, c43_empty_arrays_are_rejected, c43_same_count_as_the_design, c44_keeps_the_middle_order_statistics, c44_ties_do_not_matter, c45_winsorized_moments, c46_covariance_matrix, c46_untrimmed_is_the_ordinary_mean_and_covariance, c47_order_shift_and_scale
* Cuped_Props: c48_without_trimming, c48_constant_covariate_gives_nan, c48_mean_is_unchanged_refuted, c49_trimmed_never_hurts
* Stats_Props: c61_always_positive_refuted
* Tests_Props: c51_significant_iff_interval_excludes_zero, c51_what_the_test_computes, c52_significant_iff_interval_excludes_zero, c52_untrimmed, c52_constant_sample_has_nan_bounds, c52_what_the_test_computes, c52_without_variance_refuted
* Tests_Props2: c53_swapping_independent_samples, c53_swapping_paired_samples, c54_changing_the_unit, c54_changing_the_unit_paired, c59_relative_difference_independent, c59_relative_difference_paired, c59_always_returns_refuted
* Fieller_Props: c57_correlated_interval_contains_estimate_refuted, c57_upper_not_below_lower_for_tiny_variances_refuted, c57_threshold_bound_is_a_number_refuted, c58_unit_does_not_matter_refuted
* Synth_Props: c39_lognormal_moments, c41_runs_exactly_on_valid_parameters, c41_one_row_per_item_and_day, c41_counts_are_consistent, c42_treated_weeks_regular, c42_treated_weeks_crossover, c42_washout_without_test_period_refuted
* Effect_Props: c63_recovered_exactly_without_demeaning, c63_recovered_share_with_demeaning, c64_recovered_exactly_without_pretest, c64_share_recovered_with_pretest
* Analysis_Props2: c65_level_is_always_five_percent, c65_only_three_parameters_matter, c65_agrees_with_a_design_at_five_percent, c65_uses_the_level_of_the_design_refuted, c66_one_result_per_metric, c66_end_to_end, c66_missing_period_is_an_error
* Sim_Boot_Props: c68_simulated_rows_have_distinct_ids, c69_other_metric_names_cannot_be_validated
* Sim_State_Props: c71_validate_first_is_an_error, c71_failed_calls_change_no_attribute, c71_attributes_tell_what_has_succeeded, c71_estimating_again_keeps_old_results, c71_one_result_per_simulation, c71_values_are_none_until_validated, c71_validation_without_simulations
* Sim_Stats_Props: c73_crossover_statistics, c73_regular_statistics, c73_regular_statistics_with_pretest, c73_regular_statistics_with_pretest_and_trimming, c73_constant_pretest_gives_nan
* Sim_Estimate_Props: c73_estimation_succeeds_iff, c73_estimation_size, c73_averages_over_the_start_weeks, c73_no_start_week_is_an_error, c73_sizes_never_differ, c73_effect_never_fails, c73_balanced_data_can_be_estimated
* Sim_Variance_Props: c79_estimate_without_trimming_covers_the_analysis, c79_gap_of_the_estimate_with_trimming, c79_estimate_with_trimming_covers_the_analysis_refuted, c79_estimate_with_trimmed_items_refuted
* Display_Props: c74_p_value_text, c74_inequalities_are_truthful, c74_nan_p_value_is_shown_as_large, c74_p_above_99_percent_only_if_so_refuted, c74_displayed_number_decides_significance_refuted, c74_colours, c74_relative_interval_text
* Cupedplot_Props: c77_mean_kept_variance_not_larger, c77_dates_without_a_value, c77_without_pretest_rows_it_raises, c77_null_dates_make_it_raise
* Summary_Props: c80_summary_has_the_design_the_id_and_the_results, c80_results_are_none_until_computed, c80_summary_without_validation_never_fails, c80_table_has_one_sorted_row_per_analysis, c80_table_fails_iff, c80_display_loses_nothing, c80_display_never_fails, c80_formatted_columns
* Overtime_Props: c81_raw_values, c81_missing_arm_raises, c81_other_column_names_raise, c81_adjusted_values, c81_dates_without_adjustment_are_left_out, c81_adjustment_never_widens_the_band_refuted
* Journey_Props: c83_prepared_data_must_lose_a_column_first, c83_every_week_is_observed, c83_end_to_end, c83_crossover_results_always_come, c83_every_week_has_rows, c83_every_week_is_observed_from_its_start_refuted, c83_end_to_end_at_any_time_of_day, c83_crossover_results_at_any_time_of_day
* Warning_Props: c84_warnings, c84_equal_values_are_reported, c84_no_warning_means_positive_variances, c84_only_constant_samples_are_reported_refuted
* Sim_Effect_Props: c85_simulated_effects_are_found, c85_crossover_effects_are_finite, c85_estimated_crossover_designs_can_be_validated, c85_what_a_simulation_draws, c85_simulations_follow_each_other
* Table_Props: c86_absolute_effect_text, c86_absolute_interval_text, c86_no_separators, c86_projected_effect_text, c86_projected_interval_text, c86_projection_keeps_effects_refuted, c86_header_shows_the_level, c86_the_table, c86_the_columns, c86_the_cells, c86_every_table_can_be_shown_refuted, c86_one_header_for_all_levels_refuted, c86_no_certain_intervals_refuted
* Designer_Props: c87_prepared_history_is_a_panel, c87_every_design_can_be_estimated, c87_crossover_designs_can_be_validated, c87_complete_history_is_accepted, c87_which_designs_are_offered, c87_validated_designs_are_left_alone, c87_no_simulations_can_be_repaired_refuted, c87_the_export_is_consistent, c87_validated_designs_can_be_exported
* Entry_Props: c88_historical_reads_three_columns, c88_accepted_historical_calls, c88_other_columns_do_not_matter, c88_the_metric_is_kept_refuted, c88_rows_without_item_id_are_rejected_refuted
* Entry_Props2: c88_experiment_data_from_the_columns_read, c88_experiment_data_accepted, c88_name_clashes_are_rejected, c88_other_assignment_columns_do_not_matter_refuted
* Regular_Props: c89_what_stops_a_regular_analysis, c89_without_pretest_succeeds_iff, c89_sparse_metrics_cannot_be_analysed, c89_with_pretest_succeeds_iff
* Regular_Props2: c89_what_stops_a_regular_validation, c89_positive_metrics_can_be_validated, c89_estimated_regular_designs_can_be_validated_refuted
* Text_Props: c90_every_design_can_be_printed, c90_only_the_last_line_depends_on_the_salt, c90_what_the_text_says
* Text_Props2: c90_crossover_lines, c90_item_lines, c90_percentage_lines
* Text_Props3: c90_same_text_same_design, c90_no_trimming_means_no_percentile_refuted, c90_announced_top_trimming_removes_items_refuted, c90_announced_percentage_is_positive_refuted, c90_the_text_shows_whether_items_were_assigned_refuted
* Size_Props: c91_crossover_results_have_the_announced_size, c91_regular_results_have_nearly_the_announced_size, c91_regular_results_have_the_announced_size_refuted, c91_the_size_bounds_are_attained
* Totals_Props: c91_same_totals_same_results, c91_the_order_of_the_rows_does_not_matter, c91_same_weekly_totals_same_results, c91_a_crossover_reads_only_its_test_weeks
* Totals_Props2: c91_reported_sizes, c91_the_printed_number_is_the_reported_one
* Totals_Props3: c91_weekly_totals_fix_the_indicators_refuted
* Deepdive_Props: c92_says_not_validated_exactly_if_so, c92_no_simulations_is_a_key_error, c92_what_is_drawn, c92_densities_have_area_one_refuted
* Deepdive_Props2: c92_p_values_are_probabilities, c92_plotted_unless_all_p_values_are_missing, c92_idle_metrics_cannot_be_plotted, c92_validated_designs_can_be_plotted_refuted
* Analyzer_Props: c93_other_columns_must_exist, c93_all_five_columns_are_needed, c93_crossover_results_with_ratios, c93_crossover_gives_eleven_results
* Analyzer_Props2: c93_adjusted_plots_need_pretest_weeks, c93_plots_of_the_raw_values, c93_days_per_period
* Analyzer_Props3: c93_the_last_week_is_complete_refuted
* Robust_Props: c94_resists_as_many_outliers_as_are_trimmed, c94_one_outlier_more_is_not_resisted, c94_monotone
* Robust_Props2: c94_independent_test_resists_outliers, c94_paired_test_resists_outliers
* Cuped_Props2: c96_unit_of_the_covariate_does_not_matter, c96_unit_of_the_metric
* Regular_Props3: c97_what_stops_a_regular_experiment, c97_without_pretest_results_come_iff, c97_notebook_of_a_regular_experiment, c97_results_come_when_both_arms_have_items_refuted
* Analyzer_Props4: c98_adjusted_plots_come_iff, c98_what_the_adjusted_plots_show, c98_pretest_differences_cancel, c98_checked_pretest_data_is_plotted_refuted
* Gaps_Props: c24_unknown_names_are_value_errors, c74_texts_of_unbounded_intervals
* Inversion_Props: c99_interval_holds_what_the_independent_test_does_not_reject, c99_interval_holds_what_the_paired_test_does_not_reject, c99_absolute_interval_covers_the_true_difference
* Adjust_Props: c100_what_the_adjusted_analysis_computes, c100_balanced_arms_gain, c100_adjusted_error_never_larger_refuted, c100_balance_alone_gains_refuted
* Gaps_Props2: c88_a_second_item_column_is_rejected
* Denominator_Props: c101_constant_denominators_are_a_unit, c101_zero_numerators_have_no_test, c101_constant_denominators_are_a_unit_paired, c101_zero_numerators_have_no_interval_paired, c101_constant_denominators_without_conversions_refuted
* Ratios_Props: c102_regular_ratios_are_of_totals, c102_regular_metrics_are_per_item_and_week, c102_crossover_ratios_are_of_totals
* Ratios_Props2: c102_rising_ratios_give_a_positive_estimate_refuted
* Zeros_Props: c103_a_regular_ratio_without_numerators_has_no_test, c103_a_crossover_ratio_without_numerators_has_no_interval
* Random_Props: c104_estimates_are_unbiased, c104_squared_errors_are_conservative, c104_coins_give_unbiased_estimates, c104_trimmed_estimates_are_unbiased_refuted
* Random_Props2: c105_groups_of_fixed_size, c105_coins, c105_without_demeaning, c105_coins_are_unbiased_refuted
* Random_Props3: c106_squared_errors_of_equal_groups, c106_errors_are_too_small, c106_errors_are_conservative_refuted
* Random_Props4: c107_adjusted_estimates, c107_constant_effects_shrink, c107_adjusted_estimates_are_unbiased_refuted
* Sums_Props: c108_whole_numbers_are_added_exactly, c108_order_of_whole_numbers_is_irrelevant, c108_averages_of_whole_numbers, c108_whole_numbers_in_groups, c108_rounding_of_totals, c108_rounding_grows_slowly, c108_rounding_of_trimmed_means, c108_order_is_irrelevant_refuted
* Sums_Props2: c108_rounding_in_groups, c108_rounding_of_group_means, c108_plain_totals_have_this_bound_refuted
* Eleven_Props: c109_rows_of_a_regular_experiment, c109_at_least_one_rows_are_shares_of_weekly_data, c109_rates_of_a_crossover_experiment, c109_at_least_one_rows_are_shares_refuted
* Gaps_Props4: c81_infinite_values_are_drawn, c14_rows_come_by_item_and_arm, c85_the_drawn_arms_are_compared
* Gaps_Props5: c80_constants_are_moved_to_the_caption_except_the_washout
* Vars_Props: c110_rounding_of_winsorized_means, c110_rounding_of_variances, c110_variances_are_never_negative, c110_rounding_of_standard_deviations, c110_equal_whole_numbers_have_no_variance, c110_equal_values_have_no_variance_refuted
* Covs_Props: c110_rounding_of_covariances
* Stderr_Props: c111_rounding_of_standard_errors, c111_difference_is_least_precise, c111_arms_can_be_exchanged, c111_rounding_of_the_interval, c111_interval_uses_the_same_error_refuted
* Statistic_Props: c111_rounding_of_paired_standard_errors, c111_exchanging_the_arms_negates_the_statistic, c111_sign_of_the_difference
