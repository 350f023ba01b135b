# Formal model of google/meridian in Rocq — design

## Layout (`rocq/theories`, logical prefix `Verif`)

| layer | files | contents |
|---|---|---|
| library | `Lib_*.v` | sums over index ranges, list facts, real powers; no project content |
| model | `M_*.v` | total Gallina transcriptions of the Python functions, one definition per function, each with a comment citing file:lines; exceptions are values (`Err`), `None` arguments are `option`; no proofs |
| specification | `S_*.v` | small independent definitions of what a property means (documented formulas, "is sorted", "is the best allocation", ...), not using model helpers |
| proofs | `P_*.v` | lemmas |
| properties | `C_*.v` | the theorems (closed by `exact`), a concrete non-vacuity `Example` beside each, `Print Assumptions` beneath each |

## Modelling conventions

* Floating-point tensors are modelled as exact numbers: `R` (Coq standard reals) where powers, exp, log
  or square roots occur, `Q` or `Z` in the budget grid and other discrete code.  Rounding error, overflow
  and float NaN propagation are outside the model, except where the code itself *uses* NaN as a value
  (grid padding, masks): there NaN is `None`.
* A tensor axis is modelled as a list when the code slices/pads/concatenates along it, and as a function
  of an index together with an explicit length when it is only contracted (einsum, reduce_sum).
  Batch axes over which the code is pointwise (chains, draws, and geos/channels in the adstock kernels)
  are dropped: the model is the function applied to one slice, and the per-axis claim is for every slice.
* Python exceptions are `Err` values.  Logging, the drawing of charts, HTML and
  file I/O are not modelled; warnings only where a definition's comment says so.
* Real powers `x ** s` of the code are `rpow` (0**0 = 1, 0**s = 0 for s>0), not `Rpower`, so the
  `ln 0 = 0` convention of the library is never used.  Division is only used where the theorem has the
  non-zero hypothesis, or through `divide_no_nan` which the code itself defines at 0.

## Trusted base

* Coq 8.16.1 kernel (and `coqchk`), the transcription from Python into `M_*.v`.
* Axioms: none of our own.  Theorems over `R` depend on the standard library's axioms
  `ClassicalDedekindReals.sig_forall_dec`, `ClassicalDedekindReals.sig_not_dec`,
  `FunctionalExtensionality.functional_extensionality_dep` (and `Classical_Prop.classic` where listed).
  The discrete theorems are closed under the global context.  `Print Assumptions` output for each
  theorem is in the build log; the table at the end of this file summarises it.

## Not modelled

* MCMC/NUTS itself and the TFP distribution objects: a draw is an arbitrary value with the documented
  shape and range; densities are modelled only where the code combines them (C43, C44, C83).
* Floating point (see the conventions), XLA, tracing and autograph; the JAX/TensorFlow difference except
  for the random seeds (M_Rng) and the serialised forms.
* The drawing of charts and HTML: of the visualizer and the summarizer the tables behind the charts, the rows
  drawn and the sentences are modelled (C85, C95, C96, C100, C106, C108-C110), not marks, axes and colours.  The EDA
  reports (meridian_eda.py), MLflow autologging and the copies of older knot-selection code (legacy_aks*.py).
* The spreadsheet service of the scenario planner, apart from what M_Sheets assumes of it.
* Bytes on disk: CSV parsing and the encodings of pickle and protobuf.  Loading is modelled from the data
  frame on, serialisation on the level of messages.
* The table at the end lists which files are cited by which part of the model; each definition's comment
  says which lines it covers and what it leaves out.

## Plan per property

| id | modelled | proof |
|---|---|---|
| C01 | `_adstock` branch by branch on one geo/channel series (truncate / left-pad / window kernel) | refinement to the textbook lagged sum, list induction |
| C02 | `_compute_single_decay_function_weights` geometric and binomial | algebra over R, normalised non-negative weights; convexity |
| C03 | same | linearity of the refined sum |
| C04 | `_hill` with `rpow` | monotonicity of real powers |
| C05 | both kernels | both refine the same sum |
| C06 | mask selection in `compute_decay_weights`, `adstock_hill_media`, `adstock_hill_rf` | per-channel projection lemma |
| C07/C08 | three transformers incl. means, population stdevs, masked medians | field algebra; degenerate witnesses |
| C09 | `calculate_beta_x`, incremental outcome of `analyzer` | algebra over finite sums, exp/ln |
| C10 | `linear_predictor_counterfactual_difference_*` | witness; positive theorem when all channels use Hill |
| C11 | baseline computation in samplers and analyzer | witness; positive theorem |
| C12 | prior-type dispatch of both samplers | case analysis; witness |
| C13 | `_check_media_prior_support` | case analysis; witnesses |
| C14 | parameter formulas; moments of the log-normal as definitions exp(mu+s^2/2), ... | algebra with exp/ln/sqrt |
| C15 | masked likelihood; KPI scaling | sum splitting; witness for leakage |
| C16 | `_compute_tau_g` | lists |
| C17 | reconstruction loop with accumulator | loop invariant |
| C18/C19 | knots.py weights and `get_knot_info` | order reasoning; witnesses |
| C20 | `expand_selected_time_dims` over day numbers | lists |
| C21-C28 | optimizer.py: bounds, round factor, grid creation, trimming, grid search, `OptimizationGrid.optimize`; spend integer, outcomes rational, cells NaN = None | loop invariant over allocations, exchange argument for optimality; witnesses |
| C29 | `_allocate_tensor_by_population`, `_get_incremental_outcome_tensors` (M_Budget.v) | finite-sum algebra |
| C30, C31 | `expected_outcome`, `incremental_outcome`, `build_counterfactual_inputs`, `build_baseline_inputs` (M_Analyzer.v): per draw, tensors as functions | finite-sum algebra on cells, totality of the calls |
| C32 | `_yield_batched_distribution_tensors` and the concatenation | list induction |
| C33 | `filter_and_aggregate_by_indices` on tensors of any rank, `_resolve_geo_indices`, `_resolve_time_indices` (M_Aggregate.v) | index arithmetic; witness |
| C34 | labels of `summary_metrics` and `baseline_summary_metrics` (M_Summary) | filtering keeps order; a subsequence without duplicates is the filtered list; witness for the refuted part |
| C35 | `response_curves` (M_Curves) | monotonicity of the predictor in each paid channel |
| C36 | `roi`, `marginal_roi`, `cpik`, `get_aggregated_spend` (M_Summary) | outcome of C58 over filled spend; finite-sum algebra |
| C37 | `optimal_freq` (M_Curves) | argmax over a list |
| C38 | input_data_builder.py: setters, coordinate checks, normalisation and build as a state machine with exceptions over arbitrary labels | invariant over all call histories; acceptance characterised pairwise, hence permutation invariant; what is built is complete and on the right time axis (C38_complete, C38_axes) |
| C39 | argument builder | association lists |
| C40 | tensors.py: DataTensors, the four validations, filling, optimal frequency and placeholder media, over tensors of any shape | induction over the fields; acceptance characterised by an iff |
| C41 | weekly_optimization_grid.py: `combine`, `to_optimization_grid`, `_create_grids`, the multipliers of `create` (M_Weekly); the batched outcome computation of `create` is not modelled | permutations and sorting; linearity of interpolation; rounding bounds |
| C42 | RNG handlers as state machines over abstract split functions | bisimulation over request lists |
| C43 | proto encoder/decoder | case analysis by dtype; witnesses |
| C44 | bucketers | lists of dates; witness |
| C45 | `_adstock` on a zero-extended history | corollary of C01; witness |
| C46 | `_allocate_spend` | finite sums |
| C47 | `ModelSpec.__post_init__` | exhaustive case analysis, iff |
| C48 | chain-batch loop of the posterior sampler over an abstract transition | list induction |
| C49 | `AKS.automatic_knot_selection`, `aspline` over an abstract regression | loop invariants |
| C50 | `_bandsolve_kernel` as nested for-loops over functions-as-arrays, `_band_weight`, `_mat2rot`, `_weighted_ridge_solver` | LDL invariant, quadratic forms, convexity |
| C53 | `stabilize_rf_roi_grid` on both backends | list induction over columns |
| C54 | `create_optimization_tensors` with its validation, tensors of arbitrary rank | case analysis, iff on acceptance |
| C55 | reach/frequency data of grid rows and of the report | cellwise algebra, then C06 |
| C56 | non-media entries of `incremental_outcome` | corollary of C57; sign of centred values |
| C57 | one channel of `incremental_outcome` against two calls of `expected_outcome` | locality: a transformed channel depends on its own column only |
| C58 | `expected_outcome` and `incremental_outcome` against the predictor written out from the data (S_Predictor) | closed forms of C01/C06 per kind of channel, summed over the concatenated channel dimension |
| C59 | `get_central_tendency_and_ci` on a list of draws, numpy's linear quantile | sortedness and permutation of the sorted draws, monotonicity of interpolation; witnesses for the refuted parts |
| C60 | `summary_metrics`, `baseline_summary_metrics`, `get_aggregated_impressions` on lists of draws | cell by cell from C36, C58 and C59; linearity of the mean for the sums to 100; the refuted part from independence of the argument |
| C61 | `predictive_accuracy`, `_predictive_accuracy_helper` and the NaN-aware sums, on matrices with `None` for NaN (M_Accuracy); the selection of the metric array by labels is the `lookup` of the specification | masked matrices reduce to lists of pairs; bounds from the sums of squares; permutation for the partition |
| C62 | `negative_baseline_probability` (M_Accuracy) | from C36's expected outcome on the scenario without media |
| C63 | `get_aggregated_spend`, `_impute_and_aggregate_spend` (M_Spend) for new data with the periods of the model | selection lemma of C33 for each kind; sums over geos and periods exchanged |
| C64 | `get_rhat` masking, `rhat_summary`, `ConvergenceCheck.run` (M_Review); R-hat values are inputs | list induction over parameters and values; witness |
| C65 | `ModelReviewer.run`, `_is_relevant`, default battery (M_Review) on the model of M_Analyzer and M_Accuracy | case analysis on the run of the checks; C67 and C68 give the results of the default battery; witnesses |
| C66 | `_compute_health_score` and the score functions (M_Review) over exact reals | points as relations; weighted mean bounds and monotonicity by induction over the results |
| C67 | `BaselineCheck`, `BayesianPPPCheck`, `GoodnessOfFitCheck` (M_Review) | from C36, C61 and C62 |
| C68 | `ROIConsistencyCheck`, `PriorPosteriorShiftCheck`, `ChannelCheckConfig` (M_Review); prior quantiles and bootstrap columns are inputs | fold invariant aligning the accumulated lists with one list of channels; uniqueness of quantiles; witness |
| C69 | `ImplausibleROICheck`, `HighVarianceCheck`, `PotentialBiasCheck` (M_Review); interval function is an input | pointwise; maximum over defined correlations; witnesses |
| C70 | `HyperparametersSerde` and the converters, `ModelSpec` validation (M_Hyper) | field by field; bijectivity of the converters on their domains; witnesses |
| C71 | `DistributionSerde` (tfp messages) and `FunctionRegistry` (M_DistSerde); classes, defaults, sources and fingerprints are inputs | nested induction on parameter values, forward and backward; witnesses |
| C72 | `InputData.__post_init__` with all its validators (M_InputData) over labelled arrays with missing values | each validator equals its declarative condition; the sequence gives the conjunction; witnesses |
| C73 | `MarketingDataSerde.serialize` and `deserialize` (M_Marketing): data points per geo and date, metadata, totals of spend; reading by first occurrence of labels | each array is rebuilt from the rows of the grid of data points; loaded data satisfy C72's condition; witnesses for what is lost |
| C74 | `MeridianSerde.serialize`/`deserialize` with the EDA specification, function registries with hashes, inference data as netCDF-like datasets, check of injected samples, knots of earlier versions (M_ModelSerde) | composes C70-C73 with round trips for samples and EDA specification; inversion of a successful load |
| C75 | `save_meridian`/`load_meridian` over a file system of directories and byte strings, with every intermediate state; `os.makedirs`, the wire format of the kernel (varints, fields, unknown fields) (M_SaveFile) | every state is the old file or a beginning of the new bytes; a strict beginning parses to nothing or to a message without data or without model, both of which the loader of C74 refuses; induction over histories |
| C76 | `BudgetOptimizer.optimize`, `_validate_grid`, `create_optimization_grid`, `_validate_budget` on top of the grids of M_Opt; spend, frequency and outcome as parameters (M_Optimizer) | the bounds of a request are multiples of the step, so its fresh grid is uniform between them (C21, C22) and trimming changes nothing; an accepted grid contains the bounds, and two increasing lists with the same points are equal, so trimming it gives the fresh grid (C27) |
| C77 | The coroutine of the joint distribution (every yield in order, both graphs), pinning of the KPI, one pass of a joint distribution over given latents, log density, reading of the saved parameters by name (M_Joint). Prior densities are an arbitrary function of the parameter's name and values. | Stripping lemma by structural argument on each block; decomposition of a run into the list of its nodes; densities of the segments; C15 for the likelihood and C58 for the predictor (P_Joint, C_Joint). |
| C78 | Prior sampling as a coroutine of named requests, each with the next seed of the handler; the parameters kept in the inference data (M_PriorDraws). | Relational lemma per block between prior and posterior coroutines, permutation of the nodes, names fresh whatever the values, C77 for the meaning of what is saved (P_PriorDraws, C_PriorDraws). |
| C79 | DataFrameInputDataBuilder, CoordToColumns and DataFrameDataLoader: frames as columns and rows, the pandas reshaping on entries, then the builder of C38 (M_Frame). | Entries characterised cell by cell, the sequence of builder calls computed, acceptance and building of complete histories (P_BuilderFull), permutation invariance of each call (P_Frame-P_Frame5, C_Frame). |
| C80 | ModelContext.__init__ checks: shapes, non-revenue priors, geo and time variation of scaled data, spend of paid channels; KPI variability check of Meridian (M_Guard). | Standard deviations of scaled values reduced to those of per-capita levels by affine invariance, finite counting, standardised KPI has deviation at least one; witnesses for the refuted claims (P_Guard, C_Guard). |
| C81 | Critical checks of the EDA engine (correlation, variance inflation factor, KPI variability), their findings, and the guardrail of sample_posterior (M_Eda). | Cauchy-Schwarz, Gram-Schmidt residuals are least squares (orthogonality and span by induction), sums over flattened cells equal sums over geos and periods, permutation of predictors (P_Eda, C_Eda). |
| C82 | PriorDistribution: validation of supports, defaults, broadcast to the sizes of a model, fixed parameters (M_PriorBroadcast). | Case analysis over the table of parameters, induction over shapes and indices, idempotence through the acceptance theorem (P_PriorBroadcast, C_PriorBroadcast). |
| C83 | IndependentMultivariateDistribution: construction, splitting and concatenation of values, draws with one seed (M_Independent). | Induction over components with offsets, extensionality of ordered results, nesting through elementwise functions (P_Independent, C_Independent). |
| C84 | `distributions_are_equal` and `_warn_setting_ignored_priors` over distribution trees (class, inner distributions, parameters; `M_DistEqual.v`) | nested induction over the first tree: the comparison decides the relation `same`; the warnings are characterised by the table of which prior each type reads; refutations by witness |
| C85 | M_Report: `report_data`, `create_budget_dataset`, `warns`, `delta_rows`, `waterfall`, `drawn_limit`, `curve_multipliers`, on top of the analyzer (M_Analyzer), summaries (M_Summary) and the purchase of media (M_Budget); dates and drawing not modelled | The data bought are characterised by proportionality (`data_bought`); each figure is reduced to the outcome differences of C36/C60; linearity of sums over channels and draws gives the totals; the inequality between the mean of reciprocals and the reciprocal of the mean by tangents; sorting by permutation and order; bars by induction |
| C86 | `M_DataChecks`: arrays with NaN, quartile fences, standard deviation with and without outliers, the tables of outliers and inconsistencies, findings of `check_std`, `check_geo_std`, `check_national_std` and of the cost-per-unit checks | reflection of each table to a specification by quartiles (`is_quantile`), order statistics by the remainder of n mod 4 for the bound n/4, affine invariance of sorting and interpolation; refutations by witnesses |
| C87 | `M_National`: truncation to the periods of the KPI, `_scale_xarray`, aggregation by sum or a map of functions, `_get_rf_data`, national media and centered data; failure of an array in the critical checks (`M_Eda`) | sums over geos, the scaling lemmas of C07, affine invariance of centering; existence of the arrays reduced to a non-zero value in the window; refutation by witness |
| C88 | `M_CurveTables`: steps and lags of the adstock table, unnormalised decay at real lags (also past the window), rows by channel, lag and distribution; Hill axis, pivot and media units by position, `np.histogram(density=True)`; tables as lists of rows | rows characterised by membership, left share reduced to the documented weights of C01, axis via the transformer lemmas of C07, bins by integer part; refutations by witness |
| C89 | `M_ChannelMaps`: the two maps of functions spread over channels through the argument builders of C19 (with the bound `self`), validation, lookup by name in the order of the kinds, scaling factors from the transformers, attributes of `DistributionTensors` as a fixed list of names | lookup characterised by position under distinct names; the assignment linked to the arguments of the transformations of C01 and C06; names of tensors by cancellation of suffixes |
| C90 | `M_Labelled`: names of the dimensions, labels of geos, periods and channels, the size check of `xr.DataArray`; values from `incremental_outcome` of C58, draw by draw (chain and draw labels are dropped) | labels as names at the chosen positions, channel order by the index of C58; values by C58's documented term |
| C91 | `M_FitTable`: arrays with NaN, `np.where` by the holdout, stacking, aggregation with the shape test of `filter_and_aggregate_by_indices`, reduction over chains and draws, the dimension check of `xr.Dataset`; draws from `expected_outcome` and the baseline of C58/C62 | NaN-sums as totals when all entries are numbers; flattening of chains and draws; quantiles by C59; outcomes by C58 |
| C92 | `M_Thinning`: systematic indices (floor of offset plus multiples of the step, clipped), the number of draws, indexing by chain, attributes, the preserved copy; the state shared with `sample_posterior` and `review`; the generator's output is an argument | monotony of floors with steps above 1; invariant over histories of calls |
| C93 | `M_Restore`: coordinates and dimensions of stored draws, conversion with labels (ArviZ: sizes must match, only used dimensions are kept), the nodes of `M_Joint` and `M_PriorDraws` as variables; checks of sizes of given draws; checks of given health summaries (results of `M_Review`) | case analysis on the nodes of the joint distribution; presence of one parameter per dimension; sets of result types as permutations; invariant of the ROI fold |
| C94 | `M_NdBuilder`: the array methods of `NDArrayInputDataBuilder` on top of the setters of `M_Builder`, with the state they leave when they raise; the names given to the arrays and their validation | induction over histories (snoc): the coordinates in force, invariant of the state, arrays of a call are set together; inversion of `build` |
| C95 | `M_MediaSummary`: `contribution_metrics` with its two frames, selection by label, division of missing and zero numbers, sorting; the frame of spend and contribution | from the summary table (C60) through label lookups; permutation to rows per period; sums by `lsum`; baseline table from C60's decomposition |
| C96 | `M_MediaSummary`: objects, settings, `update_summary_metrics`, the two `lru_cache`s (most recently used first, 128 entries, keyed by object and argument form) | invariants over histories (snoc): every cache entry right for an unchanged object, right at some earlier moment; size bound; witnesses for the stale results; `C96_updated` by induction over the calls before the first question |
| C97 | `M_WeeklyCreate`: `WeeklyOptimizationGrid.create` (optimal frequency, multiplication by each multiplier, the change of the transformed media, selected weeks, revenue, batches, mean over draws, spend) | the table entry by entry equals the documented change (`paid_term`); batches concatenate; agreement with `incremental_outcome` through C58; monotone through `paid_term_mono`; witness for the revenue model |
| C98 | `M_Planner`: the scenario planner's wrapper of the saved `MarketingData` message (channel names, spends between two dates), on top of the serializer of `M_Marketing` | the dict of spends as a fold over the data points; sums over the grid of geos and periods of saved data; adjacent intervals by cases on each date; witnesses with spend by channel only and with organic media |
| C99 | `M_BudgetSpec`: budget optimization specs, their checks, the processor's loop over them around the optimizer of `M_Optimizer`, the messages it makes, and the planner's four tables; statistics of draws and response curves are parameters | dict lemmas for the constraints; the bounds recomputed from rounded spend equal those of the search because rounding is idempotent; C52/C76 lemmas for containment, grid and budget; tables by `Forall2` over the reported items |
| C100 | `M_Format`: the number and heading formatters of formatter.py over exact rationals (decimal digits from the standard library, ties to even, order of magnitude by digit counts), the scenario plan and the allocation table of the optimization report; HTML and fixed sentences left out | a numeral lemma from the standard library's decimals, an error and a monotonicity lemma for rounding, case analysis on the unit; sorting lemmas for the table; evaluated counterexamples for what is refuted |
| C101 | `M_MarketingSpec`: specs and their validation, the resolution of dates on day numbers, the processor's tables, analyses and errors, and the planner's three tables of marketing analyses; the analyzer is a parameter whose tables have the documented channels and periods | inversion of the run into a description of each analysis by table cells, totality lemmas for acceptance, a completeness invariant of analyses for the planner; evaluated or general counterexamples for what is refuted |
| C102 | `M_RfSpec`: the spec and its validation, rounding to tenths and the grid, the nan-skipping search for the best frequency, spend, reach, the messages, and the planner's three tables; ROI surfaces, metrics and curves are parameters | nearest tenths and ascending grids are unique, so the run and its description determine each other (both directions of acceptance); a left-to-right invariant of the search; evaluated counterexamples for what is refuted |
| C103 | `M_FitSpec`: the spec, the selection by evaluation set, labels and statistics, the messages, and the planner's two tables, on top of `M_FitTable`, `M_Accuracy` and `M_Time` | composition of the theorems about these (C91, C61, C51); the shape of the metrics dataset by computation, which also gives the failing `.item()` |
| C104 | `M_UiSpecs`: the four kinds of specs, the date check, the derived optimization, open-ended dates, tags, sub-specs, and the grouping and dispatch of the consumer | date arithmetic by ordinals; the buckets by the theorems of C44; tags injective because digits hold no space, groups because tags hold no colon; dispatch by induction over the groups |
| C105 | `M_XrLoader`: the name mapping, the mask of missing values, `dropna`, the alignment on assignment, and the setter calls of `load` into the builder of C38 | the converted arrays are shown faithful to the dataset by position and label; acceptance and contents then follow from the builder's theorems |
| C106 | `M_FitChart`: `ModelFit` up to the data frame: the dataset kept, the checks of the selection, the largest geos, and the pivot or sum of the rows | the labels are unique, so names are positions, and each cell is one of C91; sums of means are means of sums; the sort by population is shown to split larger from smaller; the band by a witness of three draws |
| C107 | `M_Sheets`: `upload_to_gsheet` against a small model of the spreadsheet service, `quote_plus` byte by byte, and `create_report_url` | induction over the tables for the batch of requests; the quoting is undone character by character (all 256); joining and splitting are inverse because no part has a separator |
| C108 | `M_CurveCharts`: the number of channels, `_transform_response_curve_metrics`, `_get_plottable_response_curves_df`, the filters of the chart's layers, and the range of the waterfall chart | a sorted list's beginning has the most; the tables are permutations of the rows of the channels shown, by induction over the channels; the running totals of the bars, losses first, stay between the total less the losses and the larger total |
| C109 | `M_Summarizer`: the dates of `_gen_model_results_summary`, the sorted metrics and what the sentences name, `_select_optimal_rf_data` | the selection of periods by C20's model; a sorted list's beginning is best; induction for `idxmax` and the lookups |
| C110 | `M_HealthCard`: the loop that splits the checks, the rows of the template, `checks_status` as a dictionary | stable partition by induction with accumulators; dictionary invariant by reverse induction |
| C111 | `M_TableNames`: `create_grid_sheet_name` and the loop of `DataFrameModelConverter` over its twelve converters | names tagged by converter, so only grids of one kind can clash; induction over the loop |
| C52 | `OptimizationGrid.optimize` end to end on a uniform grid | composition of C21, C23, C27 |
| C51 | `get_period_bounds` with the Gregorian calendar of Python's datetime and pandas DateOffset | calendar lemmas, list induction; witness |

## What `Print Assumptions` lists

Every theorem named in MANIFEST.json, grouped by the axioms `Print Assumptions` prints for it (all from the Coq standard library):

* **Closed under the global context** (291): C100_allocation_table, C100_apostrophe_refuted, C100_below_thousand_refuted, C100_cents_refuted, C100_compact, C100_compact_order, C100_constraint_sentence, C100_cpik_sign_refuted, C100_headings, C100_infinite_cost_refuted, C100_money, C100_negative_percent_refuted, C100_negative_zero_refuted, C100_number_text, C100_one_decimal_refuted, C100_percent, C100_range_refuted, C100_roi_change_refuted, C100_scenario_kpi, C100_scenario_revenue, C100_shares_total_refuted, C101_accepted, C101_all_channels_last_refuted, C101_all_channels_refuted, C101_analyses, C101_baseline_period_refuted, C101_documented_dates_refuted, C101_empty_period_refuted, C101_incremental_planner_refuted, C101_later_weeks_refuted, C101_media_times_refuted, C101_monthly_refuted, C101_non_paid_refuted, C101_off_calendar, C101_period_roi_refuted, C101_planner, C101_resolution, C101_spec, C101_tag_refuted, C101_zero_shares_refuted, C102_accepted, C102_below_one_refuted, C102_curve_refuted, C102_kind_refuted, C102_level_refuted, C102_low_frequencies, C102_minimum, C102_reach_refuted, C102_results, C102_share_refuted, C102_spec, C102_tables, C102_tag_refuted, C102_valid_refuted, C103_selected, C103_unspecified_refuted, C104_accepted, C104_breakdown, C104_dispatch, C104_frequency_refuted, C104_groups, C104_last_month_refuted, C104_monthly_refuted, C104_paired, C104_resolved, C104_resolved_even, C104_tags, C105_accepted, C105_kpi_kept_refuted, C105_later_gap_refuted, C105_loaded, C105_mapping_refused, C105_names, C105_refused, C107_frequency_refuted, C107_leftover_refuted, C107_quote, C107_report, C107_upload, C107_url, C107_warnings, C108_all, C108_cap_refuted, C108_count, C108_layered, C108_lines, C108_negative_refuted, C108_optimized, C108_order_refuted, C108_points, C108_separate, C108_title_refuted, C108_too_many, C108_zero_refuted, C109_cpik_refuted, C109_drivers, C109_frequency, C109_names_refuted, C109_performance, C109_period, C109_quarter_refuted, C110_counts_refuted, C110_failure_refuted, C110_rows, C110_statuses, C111_names_refuted, C111_sheet_name, C111_tables, C12_organic_rf_agreement, C12_organic_rf_prior_refuted, C12_posterior_draws_selected_parameter, C12_prior_draws_selected_parameter, C13_default_prior_type_refuted, C13_explicit_media_prior_rejected, C13_matching_rf_prior_rejected, C13_only_active_priors_refuted, C13_rejection_characterised, C13_rf_prior_type_refuted, C17_batch_size_irrelevant, C17_batch_size_rejected, C17_reconstruction, C17_saved_parameters, C19_equally_spaced, C20_coordinates, C20_expansion, C20_no_bounds, C20_selected_dates, C20_strict_coordinates_refuted, C21_bad_constraints_rejected, C21_half_step_of_exact_bound_refuted, C21_spend_bounds, C22_grid_covers_bounds, C22_grid_for_constraints, C23_within_bounds_and_budget, C24_concave_optimal, C24_rounding_refuted, C24_smaller_total_refuted, C25_exact_target_mroi_refuted, C25_target_mroi, C25_target_roi, C25_target_roi_kept, C25_total_roi_refuted, C26_search_terminates, C26_search_total, C27_trim_keeps_points_in_bounds, C28_bad_arguments_rejected, C28_rounding_error, C28_tolerance_refuted, C33_channel_dims, C33_selected_geos, C33_selected_times, C38_accepted, C38_aligned, C38_axes, C38_complete, C38_order_independent, C38_order_matters_for_ties_refuted, C38_rejected_call_kept_refuted, C39_accepted, C39_bound_channels, C39_in_order, C39_keyword_order, C39_unknown_names_refuted, C41_accepted, C41_budget_range_refuted, C41_combined, C41_date_outside, C41_default_constraint_refuted, C41_grid, C41_multipliers, C41_nested, C41_order_independent, C41_rejected, C41_single_unchecked_refuted, C41_within_multipliers_refuted, C42_accepted, C42_advance_independent_refuted, C42_always_keyed, C42_batches_prefix, C42_integer_is_pair_tf, C42_isolated_jax, C42_isolated_tf, C42_kernel_seed_does_not_advance, C42_reproducible_jax, C42_reproducible_tf, C42_successive_jax, C42_successive_tf, C42_unseeded_tf, C43_always_refuted, C43_injective, C43_round_trip, C43_string_block, C43_unsupported, C44_accepts, C44_all_buckets_refuted, C44_monthly, C44_quarterly, C44_same_month_refuted, C44_yearly, C46_given_spend_kept, C47_rejections_are_value_errors, C47_spec_accepted_iff_well_formed, C48_kept_draws, C48_posterior_shape, C48_trace_aligned, C51_accepts, C51_contiguous_periods, C51_equal_spacing_refuted, C51_last_period, C51_ordinal_counts_days, C52_budget_overrun_bounded, C52_optimized_spend, C52_within_requested_budget_refuted, C52_zero_budget_refuted, C53_backends_agree_iff, C53_jax_keeps_proportional, C53_tf_keeps_proportional, C53_tf_negative_refuted, C63_nothing_asked, C64_masking, C69_no_controls, C70_names, C70_reload, C70_silent_refuted, C70_single_knot_refuted, C70_stable, C70_zero_knot_refuted, C71_bool_refuted, C71_changed, C71_checked, C71_closure_refuted, C71_dict_refuted, C71_force, C71_round_trip, C71_unregistered, C74_samples, C76_answered, C76_arguments, C76_fresh, C76_geos_refuted, C76_mismatch, C76_no_geos_refuted, C76_other_data_refuted, C76_other_tolerance_refuted, C76_reuse, C76_used, C76_zero_target_refuted, C81_failure, C83_accepted, C83_arguments, C83_independent_refuted, C87_blocked, C89_control_name_refuted, C89_decay_accepted, C89_decay_assigned, C89_order, C89_parameters, C89_refusals, C89_saturation_accepted, C89_saturation_assigned, C89_scaling_refused, C89_self_refuted, C89_tensor, C89_unset_refuted, C92_health_refuted, C93_exact, C93_health, C93_parameters_refuted, C94_accepted, C94_cells, C94_failed_call_refuted, C94_geos, C94_kept, C94_national_shape_refuted, C94_one_geo_refuted, C94_organic_rf_refuted, C99_answered, C99_batch, C99_bounds, C99_constructors, C99_echo, C99_kpi_refuted, C99_open_total_refuted, C99_own_grid, C99_refused, C99_sheet_names_refuted, C99_spec_checks, C99_statistics, C99_tables, C99_unconstrained_refuted, C99_zero_refuted.
* **`ClassicalDedekindReals.sig_forall_dec`** (14): C16_tau_g, C31_reported_total, C40_accepted, C40_analyzer_fill, C40_error_kind_refuted, C40_filled, C40_ignored_tensor_matters_refuted, C40_periods, C40_shapes, C40_spend_length_refuted, C40_time_length_refuted, C83_nested, C83_order, C83_order_unique.
* **`ClassicalDedekindReals.sig_forall_dec`, `FunctionalExtensionality.functional_extensionality_dep`** (163): C05_kernels_agree, C06_alpha_exponent_bijection, C07_controls_round_trip, C07_kpi_round_trip, C07_media_round_trip, C07_media_scale_is_documented_median, C07_media_transformer_built_iff, C07_median_unique, C07_scaled_media_has_median_one, C08_controls_round_trip_iff, C08_kpi_round_trip_iff, C103_spec, C11_baseline_is_requested_value, C11_baseline_values_accepted_iff, C16_baseline_geo, C18_accepts, C18_partition_of_unity, C19_default_is_one_value_per_period, C19_duplicate_knots_miscounted, C19_duplicate_knots_refuted, C19_knot_configuration, C19_rejects, C19_single_knot_is_constant, C19_valid_list_accepted_refuted, C29_population_split, C29_population_split_rejects, C29_scaled_media_costs_the_budget, C29_scaled_rf_costs_the_budget, C29_zero_history_refuted, C33_aggregated_is_sum, C33_ambiguous_shape_refuted, C33_cells, C33_cells_without_channels, C33_disjoint_geos_add, C33_empty_times_selects_nothing, C40_dummy_media, C40_optimal_frequency, C46_allocated_spend_sums_to_total, C46_allocation_proportional, C50_band_solver, C50_band_solver_nonzero_pivots, C50_constant_kpi_fails, C50_penalty_is_differences, C50_regression_total_refuted, C50_rotation_total, C50_weighted_ridge_minimises, C54_accepts_iff, C54_media_data, C54_revenue_and_absent, C54_rf_data, C54_zero_frequency_refuted, C55_impressions_scale_with_spend, C59_accepted, C59_change_of_units, C59_level_checked_refuted, C59_level_one, C59_mean_inside_refuted, C59_median_inside, C59_monotone, C59_order_of_draws, C59_summaries, C59_wider_with_level, C59_within_draws, C64_all_nan, C64_convergence, C64_nan_first_refuted, C64_rank_error, C64_summary, C68_constant_refuted, C68_roi, C68_shift, C68_tolerance, C69_high_variance, C69_implausible, C69_zero_median_refuted, C70_precision_refuted, C70_round_trip, C71_precision_refuted, C72_accepts, C72_controls_refuted, C72_copy, C72_dates_refuted, C72_kept, C72_media_dates_refuted, C72_refused, C72_repeated_date_refuted, C72_spend_geos_refuted, C72_spend_refuted, C73_again, C73_controls_refuted, C73_exact, C73_fraction_refuted, C73_nothing_filled_in, C73_periods_refuted, C73_round_trip, C74_changed_function, C74_empty_key_refuted, C74_review_refuted, C74_round_trip, C74_samples_checked, C74_versions, C75_bare_name_refuted, C75_crash, C75_failed_save_refuted, C75_interrupted_refuted, C75_isolated, C75_latest, C75_only_saved, C75_saves, C79_balanced, C79_cells, C79_channels, C79_complete, C79_documented, C79_empty_column_dropped_refuted, C79_geos_mixed_refuted, C79_media_ignored_refuted, C79_population, C79_revenue_lag_refuted, C79_row_order, C82_accepted, C82_checked_refuted, C82_nan_refuted, C82_slope_warning, C82_slope_warning_refuted, C83_density, C84_answers_refuted, C84_equal, C84_itself, C84_name_refuted, C84_organic_refuted, C84_shape_refuted, C84_symmetric_refuted, C84_transitive_refuted, C84_warnings, C85_curves, C85_deltas, C85_joins_refuted, C85_limits, C86_costs, C86_number, C86_one_price, C86_outliers, C86_price_jump_refuted, C86_too_few, C86_units, C87_aggregated, C89_scaling, C92_accepted, C92_all_kept_refuted, C92_equal_chance, C92_gaps, C92_history, C92_restored, C92_rounding, C92_stale_refuted, C92_thinned, C98_adjacent, C98_channels, C98_kinds, C98_paid_refuted, C98_part_refuted, C98_spends.
* **`ClassicalDedekindReals.sig_forall_dec`, `ClassicalDedekindReals.sig_not_dec`, `FunctionalExtensionality.functional_extensionality_dep`** (35): C07_controls_are_standardised, C07_controls_scale_flagged_channels_only, C07_kpi_is_standardised, C08_kpi_stdev_zero_iff_constant, C08_round_trip_refuted, C11_population_scaled_baseline_iff, C11_population_scaled_baseline_refuted, C11_prior_baseline_is_reported_baseline, C11_reported_baselines_agree, C49_minimal_aic, C49_rejects, C49_selected_knots, C49_usable, C69_bias, C69_constant_refuted, C80_zero_population_refuted, C81_attention, C81_combination, C81_findings, C81_line, C81_lines_per_geo_refuted, C81_little_variation_refuted, C81_sampling, C81_threshold_one, C81_units, C86_constant_refuted, C86_mostly_constant, C86_std, C87_available, C87_builds_refuted, C87_national_media, C87_national_rf, C87_periods, C87_standardised, C87_sum_or_mean.
* **`ClassicalDedekindReals.sig_forall_dec`, `Classical_Prop.classic`, `FunctionalExtensionality.functional_extensionality_dep`** (1): C74_single_knot_refuted.
* **`ClassicalDedekindReals.sig_forall_dec`, `ClassicalDedekindReals.sig_not_dec`, `Classical_Prop.classic`, `FunctionalExtensionality.functional_extensionality_dep`** (210): C01_adstock_is_lagged_sum, C01_adstock_rejects_iff, C01_alpha_zero_is_identity, C01_old_media_is_irrelevant, C02_adstock_is_contraction, C02_constant_media_is_fixed, C02_weights_are_probability_vector, C03_adstock_is_linear, C03_adstock_is_monotone, C04_hill_forward_entrywise, C04_hill_shape, C05_backends_agree, C06_channel_choice_is_local, C06_default_output_length, C06_media_transformation, C06_media_transformation_is_monotone, C06_rf_channel_choice_is_local, C06_rf_is_linear_in_reach, C06_rf_transformation, C06_unsaturated_channel_is_linear, C09_non_media_prior_honoured, C09_organic_media_prior_honoured, C09_organic_rf_prior_honoured, C09_paid_media_coefficient_exists, C09_paid_media_prior_honoured, C09_paid_rf_prior_honoured, C103_accepted, C103_actual_refuted, C103_mixed_refuted, C103_planner, C103_results, C103_unsplit_refuted, C106_accepted, C106_band_refuted, C106_chart, C106_largest, C106_negative_refuted, C106_update, C106_update_refuted, C108_clipped_refuted, C108_domain, C108_padding, C10_hill_channels_honour_counterfactual_priors, C10_linear_channel_mroi_prior_refuted, C14_mean_and_std, C14_range_accepts_iff, C14_range_errors, C14_range_has_mass, C14_total_media_contribution, C15_full_likelihood, C15_heldout_scaled_values_irrelevant, C15_holdout_likelihood, C15_raw_heldout_kpi_refuted, C30_outcome_decomposition, C31_total_is_scenario_difference, C32_each_draw_alone, C32_each_expected_draw_alone, C32_expected_batch_size, C32_incremental_batch_size, C32_positive_batch_size, C34_contribution_labels, C34_every_order_refuted, C34_labels, C34_other_orders_mislabelled, C35_curves, C35_monotone, C35_negative_refused, C35_optimal_frequency, C35_spend_within_selection_refuted, C35_zero, C36_cpik, C36_flat_history_refused, C36_geo_weighted, C36_marginal_roi, C36_nonnegative, C36_reciprocal, C36_roi, C36_selection_of_flat_spend_refused_refuted, C37_confidence_level_refuted, C37_default_grid, C37_flat_spend_rejected, C37_optimal_frequency, C45_short_history_refuted, C45_zero_history_is_neutral, C55_grid_and_report_agree, C56_non_media_ignores_media_scaling, C56_non_media_sign, C57_channel_is_scenario_difference, C58_expected_outcome, C58_expected_units_checked, C58_incremental_outcome, C58_paid_channels, C58_scaling_factors_checked, C58_units_checked, C60_hundred_percent, C60_metrics_follow_optimal_frequency_refuted, C60_spend_shares, C60_table, C61_boolean_times_refuted, C61_bounds, C61_geo_partition, C61_metrics, C61_national_partition_refuted, C61_perfect_fit, C62_negative_baseline, C63_geos_add_up, C63_periods_add_up, C63_spend, C63_total, C63_total_reported_refuted, C65_custom_battery_refuted, C65_default, C65_default_no_roi, C65_mixed_priors_refuted, C65_not_converged, C65_run, C66_boundary_refuted, C66_monotone, C66_nan_refuted, C66_range, C66_required, C66_score, C67_baseline, C67_goodness_of_fit, C67_ppp, C77_defined, C77_graphs, C77_log_density, C77_saved_draws_usable, C77_saved_parameters, C78_defined, C78_organic_rf_refuted, C78_organic_rf_type, C78_prior_draws, C78_same_nodes, C78_saved_names, C78_seeds, C80_exact, C80_frequency_refuted, C80_geo_varies, C80_non_revenue, C80_small_variation_refuted, C80_time_varies, C82_again, C82_column_refuted, C82_defaults, C82_fits, C82_fixed, C82_knots_refuted, C82_law, C82_national_zero_refuted, C82_sigma_refuted, C85_label, C85_label_refuted, C85_reciprocal_refuted, C85_report, C85_silent_refuted, C85_target_mroi, C85_target_roi, C85_total_cpik, C85_waterfall, C85_weighted_roi, C88_beyond_data_refuted, C88_count_refuted, C88_decay_lags, C88_decay_rows, C88_decay_runs, C88_decay_shape, C88_hill_rows, C88_hill_runs, C88_hill_shape, C88_histogram, C88_last_lag_refuted, C88_long_lag_refuted, C88_unsaturated_refuted, C90_by_label, C90_labels, C90_new_dates_refuted, C90_paid, C91_lookalike_refuted, C91_means_add, C91_split_refuted, C91_table, C93_custom_battery_refuted, C93_health_refuted, C93_names_refuted, C93_posterior_labels, C93_prior_labels, C93_review_accepted, C93_round_trip, C95_adds_up, C95_all, C95_baseline_present_refuted, C95_paid, C95_spend, C95_unknown, C96_bounded, C96_current, C96_some_moment, C96_stale, C96_table_after_update_refuted, C96_update_effective_refuted, C96_updated, C97_agrees_for_revenue_refuted, C97_agrees_with_analyzer, C97_batch_size, C97_nondecreasing, C97_table, C97_weeks_add_up, C97_zero.

## Which files of the code the model cites

Python file and the model files that cite lines of it; a file of /repo that is not listed is not modelled.

| file | model |
|---|---|
| meridian/backend/__init__.py | M_Accuracy, M_AdstockHill, M_Budget, M_DistEqual, M_Independent, M_Rng, M_TensorProto, M_Transformers |
| meridian/model/adstock_hill.py | M_AdstockHill, M_ChannelMaps, M_CurveTables |
| meridian/analysis/analyzer.py | M_Accuracy, M_Aggregate, M_Analyzer, M_CurveTables, M_Curves, M_FitTable, M_Labelled, M_Review, M_RfSpec, M_Spend, M_Stats, M_Summary |
| meridian/data/arg_builder.py | M_ArgBuilder, M_ChannelMaps |
| scenarioplanner/converters/dataframe/budget_opt_converters.py | M_BudgetSpec, M_TableNames |
| meridian/schema/processors/budget_optimization_processor.py | M_BudgetSpec |
| meridian/analysis/review/checks.py | M_DistEqual, M_Review |
| meridian/schema/processors/common.py, scenarioplanner/converters/dataframe/common.py | M_BudgetSpec, M_MarketingSpec, M_RfSpec, M_TableNames |
| meridian/analysis/review/configs.py | M_Review |
| meridian/constants.py, meridian/model/eda/constants.py | M_AdstockHill, M_ChannelMaps, M_CurveTables, M_Curves, M_DataChecks, M_DistEqual, M_DistSerde, M_FitChart, M_FitSpec, M_Guard, M_HealthCard, M_MediaSummary, M_ModelSerde, M_PriorDist, M_PriorDraws, M_Priors, M_Restore, M_Sampler, M_Sheets, M_Spec, M_Summarizer, M_XrLoader |
| meridian/model/context.py | M_Accuracy, M_Analyzer, M_ChannelMaps, M_DistEqual, M_Guard, M_Joint, M_ModelSerde, M_National, M_Priors, M_Restore, M_Sampler, M_Spec |
| meridian/data/data_frame_input_data_builder.py | M_Frame |
| scenarioplanner/converters/dataframe/dataframe_model_converter.py | M_TableNames |
| meridian/schema/utils/date_range_bucketing.py | M_Time |
| meridian/schema/serde/distribution.py | M_DistSerde |
| meridian/model/eda/eda_engine.py | M_DataChecks, M_Eda, M_Guard, M_National |
| meridian/model/eda/eda_outcome.py | M_DataChecks, M_Eda |
| meridian/schema/serde/eda_spec.py, meridian/model/eda/eda_spec.py | M_Eda, M_ModelSerde |
| meridian/model/equations.py | M_Analyzer, M_Equations, M_Priors |
| meridian/templates/formatter.py | M_Format |
| meridian/schema/serde/function_registry.py | M_DistSerde |
| meridian/schema/serde/hyperparameters.py | M_Hyper |
| meridian/schema/serde/inference_data.py | M_ModelSerde |
| meridian/data/input_data.py | M_ArgBuilder, M_Builder, M_ChannelMaps, M_CurveCharts, M_FitChart, M_Guard, M_InputData, M_Labelled, M_NdBuilder, M_Priors |
| meridian/data/input_data_builder.py | M_Builder, M_NdBuilder |
| meridian/model/knots.py | M_AKS, M_Band, M_Knots, M_ModelSerde |
| meridian/data/load.py | M_Frame, M_XrLoader |
| scenarioplanner/converters/dataframe/marketing_analyses_converters.py | M_FitSpec, M_MarketingSpec, M_TableNames |
| meridian/schema/serde/marketing_data.py | M_Marketing |
| meridian/schema/processors/marketing_processor.py | M_MarketingSpec |
| meridian/model/media.py | M_Curves, M_Priors, M_Tensors, M_WeeklyCreate |
| meridian/schema/serde/meridian_serde.py | M_ModelSerde, M_Restore, M_SaveFile |
| scenarioplanner/converters/mmm.py | M_BudgetSpec, M_FitSpec, M_MarketingSpec, M_Planner, M_RfSpec |
| meridian/schema/mmm_proto_generator.py | M_UiSpecs |
| scenarioplanner/mmm_ui_proto_generator.py | M_UiSpecs |
| meridian/model/model.py | M_Eda, M_Guard, M_ModelSerde, M_Restore, M_Thinning |
| meridian/schema/model_consumer.py | M_UiSpecs |
| meridian/schema/processors/model_fit_processor.py | M_FitSpec |
| meridian/schema/processors/model_processor.py | M_BudgetSpec, M_MarketingSpec, M_RfSpec, M_UiSpecs |
| meridian/data/nd_array_input_data_builder.py | M_NdBuilder |
| meridian/analysis/optimizer.py | M_Budget, M_BudgetSpec, M_CurveCharts, M_Format, M_Opt, M_Optimizer, M_Report |
| meridian/model/posterior_sampler.py | M_Joint, M_Knots, M_PriorDraws, M_Priors, M_Restore, M_Review, M_Rng, M_Sampler, M_Spec |
| meridian/model/prior_distribution.py | M_DistEqual, M_Independent, M_PriorBroadcast, M_PriorDist, M_Restore |
| meridian/model/prior_sampler.py | M_PriorDraws, M_Priors, M_Sampler, M_Spec |
| meridian/schema/utils/proto_enum_converter.py | M_Hyper |
| meridian/schema/processors/reach_frequency_optimization_processor.py | M_RfSpec, M_UiSpecs |
| meridian/analysis/review/results.py | M_HealthCard, M_Restore, M_Review |
| meridian/analysis/review/reviewer.py | M_Review |
| scenarioplanner/converters/dataframe/rf_opt_converters.py | M_RfSpec, M_TableNames |
| scenarioplanner/converters/sheets.py | M_Sheets |
| meridian/model/spec.py | M_ChannelMaps, M_Guard, M_Hyper, M_Spec |
| meridian/analysis/summarizer.py | M_Summarizer |
| meridian/analysis/tensors.py | M_Aggregate, M_Analyzer, M_ChannelMaps, M_Curves, M_Joint, M_Priors, M_Summary, M_Tensors |
| meridian/data/time_coordinates.py | M_MarketingSpec, M_Planner, M_Time, M_UiSpecs |
| meridian/schema/utils/time_record.py | M_FitSpec, M_Marketing |
| meridian/model/transformers.py | M_Guard, M_Priors, M_Transformers |
| scenarioplanner/linkingapi/url_generator.py | M_Sheets |
| meridian/data/validator.py | M_Builder, M_InputData |
| meridian/version.py | M_ModelSerde |
| meridian/analysis/visualizer.py | M_CurveCharts, M_FitChart, M_MediaSummary |
| meridian/analysis/weekly_optimization_grid.py | M_Weekly, M_WeeklyCreate |
