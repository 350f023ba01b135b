{"id": "C01", "title": "Adstock is the documented finite lagged weighted sum", "statement": "AdstockTransformer.forward(media) returns exactly n_times_output values; the value for output period t is sum over lags l=0..W-1 of w_l * media[t-l], where W=min(max_lag+1, number of media periods), the output periods are the last n_times_output media periods, and media before the first supplied period counts as zero. Media older than the last n_times_output+W-1 periods never influences the result.", "quantifier": "every media series, every max_lag>=0, every 1<=n_times_output<=n_media_times, every weight vector", "why_tests_cant": "A unit test fixes a handful of tensors; the claim is about every length, every parameter value and every input, so only a proof by induction/algebra can settle it.", "anchors": ["meridian/model/adstock_hill.py: _adstock, AdstockTransformer", "meridian/backend/__init__.py: adstock_process"]}
{"id": "C02", "title": "Adstock weights are a probability vector and adstocked media is a contraction", "statement": "The decay weights used by adstock (geometric or binomial) are non-negative, sum to one and never increase with the lag; consequently adstocked non-negative media lies between 0 and the maximum media value, and a media series constant at c for at least W periods is mapped to exactly c.", "quantifier": "every alpha in [0,1) (geometric) / (0,1] (binomial), every window size and media series", "why_tests_cant": "A unit test fixes a handful of tensors; the claim is about every length, every parameter value and every input, so only a proof by induction/algebra can settle it.", "anchors": ["meridian/model/adstock_hill.py: compute_decay_weights, _compute_single_decay_function_weights, _adstock"]}
{"id": "C03", "title": "Adstock is linear and monotone in media", "statement": "Adstock of a*x+b*y equals a*adstock(x)+b*adstock(y) period by period, and x<=y pointwise implies adstock(x)<=adstock(y) pointwise.", "quantifier": "every pair of equally long media series, all real a,b, every max_lag, n_times_output, alpha in range", "why_tests_cant": "A unit test fixes a handful of tensors; the claim is about every length, every parameter value and every input, so only a proof by induction/algebra can settle it.", "anchors": ["meridian/model/adstock_hill.py: _adstock"]}
{"id": "C04", "title": "Hill saturation has the documented shape", "statement": "HillTransformer.forward maps 0 to 0, maps the half-saturation point ec to exactly 1/2, is strictly increasing in media, non-increasing in ec, and its values always lie in [0,1).", "quantifier": "every media value >=0, every ec>0 and slope>0", "why_tests_cant": "A unit test fixes a handful of tensors; the claim is about every length, every parameter value and every input, so only a proof by induction/algebra can settle it.", "anchors": ["meridian/model/adstock_hill.py: _hill, HillTransformer"]}
{"id": "C05", "title": "The TensorFlow and JAX adstock kernels compute the same function", "statement": "For the same padded media and the same weights the windowed-sum kernel (TF / JAX CPU) and the convolution kernel (JAX accelerator) return the same tensor.", "quantifier": "every media series, window size >=1 and number of output periods with length = n_out+window-1", "why_tests_cant": "The repository tests compare the kernels on a few random tensors; equality for all shapes and values needs a proof.", "anchors": ["meridian/backend/__init__.py: _tf_adstock_process, _jax_adstock_process_cpu, _jax_adstock_process_conv"]}
{"id": "C06", "title": "Per-channel decay and saturation choices are applied to the right channel only", "statement": "With a sequence of decay functions (or of saturation functions) the transformed media of channel m equals what a model in which every channel uses channel m's choice would produce; channels using saturation 'none' are linear in media; RF channels are linear in reach.", "quantifier": "every number of channels, every assignment of decay/saturation functions to channels, every tensor", "why_tests_cant": "A unit test fixes a handful of tensors; the claim is about every length, every parameter value and every input, so only a proof by induction/algebra can settle it.", "anchors": ["meridian/model/adstock_hill.py: compute_decay_weights", "meridian/model/equations.py: adstock_hill_media, adstock_hill_rf"]}
{"id": "C07", "title": "Scaling transformers invert themselves", "statement": "inverse(forward(x)) = x for the media, control/non-media and KPI transformers whenever the stored scale is non-zero, for data other than the data used to build the transformer as well; forward of the training KPI has mean 0 and, when not constant, standard deviation 1.", "quantifier": "every training tensor, every tensor to transform, every population vector with non-zero entries", "why_tests_cant": "A unit test fixes a handful of tensors; the claim is about every length, every parameter value and every input, so only a proof by induction/algebra can settle it.", "anchors": ["meridian/model/transformers.py: MediaTransformer, CenteringAndScalingTransformer, KpiTransformer"]}
{"id": "C08", "title": "Degenerate transformer inputs lose information (refutation)", "statement": "The round trip of C07 fails exactly in the degenerate cases: a geo with zero population or a constant KPI/control: forward collapses the data and inverse cannot recover it.", "quantifier": "existence of inputs accepted by the constructors", "why_tests_cant": "A passing round-trip test on generic data hides the degenerate case.", "anchors": ["meridian/model/transformers.py: KpiTransformer.forward, CenteringAndScalingTransformer.forward"]}
{"id": "C09", "title": "ROI / contribution priors are honoured by the coefficients derived from them", "statement": "For any drawn ROI, mROI or contribution value, the coefficient computed from it makes the incremental outcome of the channel (sum over geos and times of revenue_per_kpi * population * kpi stdev * beta_g * (linear predictor - counterfactual linear predictor)) equal to that value times the prior denominator (spend or total outcome), for normal and for log-normal geo effects.", "quantifier": "every draw, every media tensor, every revenue_per_kpi, population, spend, eta and geo deviation with non-zero (positive for log-normal) response", "why_tests_cant": "A unit test fixes a handful of tensors; the claim is about every length, every parameter value and every input, so only a proof by induction/algebra can settle it.", "anchors": ["meridian/model/equations.py: calculate_beta_x", "meridian/model/prior_sampler.py", "meridian/model/posterior_sampler.py: _joint_dist_base_logic"]}
{"id": "C10", "title": "mROI priors and ROI calibration ignore the linear saturation option (refutation)", "statement": "For a channel with saturation 'none' the counterfactual used to derive the coefficient from an mROI prior (or from an ROI prior with a calibration period) should be transformed with the same saturation as the actual media. It is not: the counterfactual always goes through Hill, so the prior is not honoured.", "quantifier": "existence of a model configuration accepted by the library; and the positive claim for every configuration in which all channels use Hill", "why_tests_cant": "Tests only run the default saturation together with mROI priors.", "anchors": ["meridian/model/equations.py: linear_predictor_counterfactual_difference_media, linear_predictor_counterfactual_difference_rf"]}
{"id": "C11", "title": "Non-media contribution priors use the same baseline as the reported contribution", "statement": "The baseline level used to turn a non-media contribution prior into a coefficient equals the baseline level used when the contribution is reported. True when no channel is population scaled; false (refutation) with non_media_population_scaling_id, because the already population-scaled baseline is divided by population a second time.", "quantifier": "every data set without population scaling; existence of a data set with it", "why_tests_cant": "A unit test fixes a handful of tensors; the claim is about every length, every parameter value and every input, so only a proof by induction/algebra can settle it.", "anchors": ["meridian/model/prior_sampler.py: _sample_non_media_treatments_priors", "meridian/model/posterior_sampler.py", "meridian/analysis/tensors.py: build_baseline_inputs", "meridian/model/transformers.py: CenteringAndScalingTransformer.forward"]}
{"id": "C12", "title": "Prior sampling uses the prior type the user selected for each treatment type", "statement": "For every treatment type the prior sampler draws the parameter named by that type's *_prior_type option, as posterior sampling does. Holds for paid media, RF, organic media and non-media; refuted for organic RF, where prior sampling consults organic_media_prior_type.", "quantifier": "every valid model spec", "why_tests_cant": "Tests set both organic prior types to the same value.", "anchors": ["meridian/model/prior_sampler.py: _sample_organic_rf_priors", "meridian/model/posterior_sampler.py: _joint_dist_base_logic", "meridian/model/spec.py: ModelSpec"]}
{"id": "C13", "title": "Negative-support priors are rejected with log-normal effects", "statement": "With log-normal media effects, a model whose active ROI/mROI/contribution prior puts mass below zero is rejected at construction. Holds when media_prior_type is set explicitly for paid media; refuted when it is left at its default (None, meaning ROI) or when the offending prior belongs to RF with a different rf_prior_type.", "quantifier": "every model spec / prior", "why_tests_cant": "The tests set media_prior_type explicitly.", "anchors": ["meridian/model/context.py: _check_media_prior_support, _check_for_negative_support", "meridian/model/spec.py: effective_media_prior_type"]}
{"id": "C14", "title": "Log-normal prior helpers hit the requested moments and range", "statement": "lognormal_dist_from_mean_std(m,s) has mean m and standard deviation s; lognormal_dist_from_range(low,high,mass) puts its (1-mass)/2 and (1+mass)/2 quantiles at low and high; the total-media-contribution ROI prior gives total contribution mean p_mean and standard deviation p_sd as a fraction of the KPI.", "quantifier": "every positive mean, non-negative std, 0<low<high, mass in (0,1), positive spend vector", "why_tests_cant": "A unit test fixes a handful of tensors; the claim is about every length, every parameter value and every input, so only a proof by induction/algebra can settle it.", "anchors": ["meridian/model/prior_distribution.py: lognormal_dist_from_mean_std, lognormal_dist_from_range, _get_total_media_contribution_prior"]}
{"id": "C15", "title": "Held-out observations contribute nothing to the likelihood", "statement": "With a holdout mask the joint log-density equals the log-density summed over the non-held-out cells only, for any KPI values in held-out cells given the scaled KPI of the rest; refutation: the raw held-out KPI values still influence the fit because the KPI mean/stdev used for scaling includes them.", "quantifier": "every mask, every prediction, every KPI tensor", "why_tests_cant": "A unit test fixes a handful of tensors; the claim is about every length, every parameter value and every input, so only a proof by induction/algebra can settle it.", "anchors": ["meridian/model/posterior_sampler.py: _joint_dist_base_logic, _pin_dist", "meridian/model/context.py: kpi_transformer"]}
{"id": "C16", "title": "Geo effects are zero exactly at the baseline geo", "statement": "tau_g has one entry per geo, is zero at the baseline geo and lists the other geos' sampled effects in order.", "quantifier": "every number of geos, every baseline index in range, every sampled vector", "why_tests_cant": "A unit test fixes a handful of tensors; the claim is about every length, every parameter value and every input, so only a proof by induction/algebra can settle it.", "anchors": ["meridian/model/posterior_sampler.py: _compute_tau_g", "meridian/model/prior_sampler.py: _get_tau_g"]}
{"id": "C17", "title": "Posterior reconstruction does not depend on the batch size", "statement": "The deterministic parameters returned by sample_posterior are the draw-wise function of the latents at the same chain and draw, for every reconstruction_batch_size>=1; batch sizes below 1 are rejected.", "quantifier": "every number of chains, draws, every batch size", "why_tests_cant": "A unit test fixes a handful of tensors; the claim is about every length, every parameter value and every input, so only a proof by induction/algebra can settle it.", "anchors": ["meridian/model/posterior_sampler.py: _reconstruct_posteriors, _HostResultAccumulator, _flatten_chain_and_draw_dims"]}
{"id": "C18", "title": "Knot weights form a partition of unity with exact interpolation", "statement": "For sorted distinct knot locations in range, the weights of the knots at each time are non-negative, sum to 1, at most two (adjacent) are non-zero, equal 1 at a knot, and reproduce linear interpolation between neighbouring knots and constant extrapolation outside.", "quantifier": "every number of time periods and every sorted list of at least two knots", "why_tests_cant": "A unit test fixes a handful of tensors; the claim is about every length, every parameter value and every input, so only a proof by induction/algebra can settle it.", "anchors": ["meridian/model/knots.py: l1_distance_weights, _find_neighboring_knots_indices"]}
{"id": "C19", "title": "Knot configuration is validated and sized correctly", "statement": "get_knot_info accepts an integer 1<=knots<=n_times or a list of in-range knots and rejects the others; the number of knots reported equals the number of rows of the weight matrix. Refuted for lists with duplicates, which are accepted and yield more knots than distinct columns.", "quantifier": "every n_times, every knots argument", "why_tests_cant": "A unit test fixes a handful of tensors; the claim is about every length, every parameter value and every input, so only a proof by induction/algebra can settle it.", "anchors": ["meridian/model/knots.py: get_knot_info"]}
{"id": "C20", "title": "Time selections expand to exactly the inclusive date range", "statement": "expand_selected_time_dims(start,end) returns exactly the coordinates between start and end inclusive, in order; None bounds mean the first/last date; the whole range is returned as None; dates not in the coordinates, or end before start, raise.", "quantifier": "every strictly increasing coordinate list and every start/end", "why_tests_cant": "A unit test fixes a handful of tensors; the claim is about every length, every parameter value and every input, so only a proof by induction/algebra can settle it.", "anchors": ["meridian/data/time_coordinates.py: expand_selected_time_dims"]}
{"id": "C21", "title": "Optimizer spend bounds respect the user's constraints", "statement": "get_optimization_bounds: every channel's lower bound is spend*(1-lower constraint) and upper bound spend*(1+upper constraint), rounded to the grid step; lower<=upper; both are multiples of the step and within half a step of the constraint applied to the spend rounded to the step; invalid constraints raise ValueError. (Within half a step of the constraint applied to the exact spend: refuted.)", "quantifier": "every spend vector, every constraint in range, every rounding exponent", "why_tests_cant": "A unit test fixes a handful of tensors; the claim is about every length, every parameter value and every input, so only a proof by induction/algebra can settle it.", "anchors": ["meridian/analysis/optimizer.py: get_optimization_bounds, _get_spend_bounds, _validate_spend_constraints"]}
{"id": "C22", "title": "Spend grid covers every channel's bounds exactly", "statement": "Each channel's grid column starts at its lower bound, increases by exactly one step per row up to the largest multiple not above the upper bound, and is padded with NaN after it.", "quantifier": "every pair of bounds that are multiples of the step", "why_tests_cant": "A unit test fixes a handful of tensors; the claim is about every length, every parameter value and every input, so only a proof by induction/algebra can settle it.", "anchors": ["meridian/analysis/optimizer.py: _create_grids"]}
{"id": "C23", "title": "Grid search stays within bounds and within budget", "statement": "The budget returned by the fixed-budget grid search lies, for every channel, on the channel's grid (hence within its bounds) and its total never exceeds the (rounded) budget unless the lower bounds alone do.", "quantifier": "every grid, every incremental-outcome table (concave or not), every budget", "why_tests_cant": "The loop's behaviour depends on the whole outcome table; tests check single tables.", "anchors": ["meridian/analysis/optimizer.py: OptimizationGrid._grid_search, optimize"]}
{"id": "C24", "title": "Grid search is optimal for concave response curves", "statement": "If every channel's incremental outcome is concave along its grid and steps are equal, no allocation on the grid with the same or smaller total spend has a larger total incremental outcome than the one returned by the fixed-budget search, up to 1e-8 per unit of spend moved (step returns are rounded to 8 decimals before comparison), and exactly when step returns are multiples of 1e-8; for smaller totals the curves must be nondecreasing. (Exactly for all curves: refuted by rounding; smaller totals for decreasing curves: refuted.)", "quantifier": "every grid and every concave table", "why_tests_cant": "A unit test fixes a handful of tensors; the claim is about every length, every parameter value and every input, so only a proof by induction/algebra can settle it.", "anchors": ["meridian/analysis/optimizer.py: OptimizationGrid._grid_search"]}
{"id": "C25", "title": "Flexible-budget search accepts only steps meeting the target", "statement": "In target-mROI mode every unit step taken above the lower bounds had marginal ROI >= the target up to half a unit in the 8th decimal, and no step above it is left; in target-ROI mode every accepted step leaves the total ROI >= the target or itself returned at least the new total ROI (up to rounding), and a total ROI at or above the target is never lost. (Exact target, and total ROI >= target after every accepted step: refuted.)", "quantifier": "every grid, every outcome table and target", "why_tests_cant": "A unit test fixes a handful of tensors; the claim is about every length, every parameter value and every input, so only a proof by induction/algebra can settle it.", "anchors": ["meridian/analysis/optimizer.py: _grid_search, _exceeds_optimization_constraints"]}
{"id": "C26", "title": "Grid search terminates", "statement": "The search loop performs at most (number of grid cells) iterations on every input.", "quantifier": "every grid and outcome table, including NaN cells", "why_tests_cant": "Termination is a property of all executions.", "anchors": ["meridian/analysis/optimizer.py: _grid_search"]}
{"id": "C27", "title": "Trimming a grid to new bounds keeps exactly the rows in bounds", "statement": "trim_grids returns for each channel exactly the original grid points inside the new bounds, in order, with the outcome values of those same points, NaN-padded.", "quantifier": "every grid and every bound pair on the grid", "why_tests_cant": "A unit test fixes a handful of tensors; the claim is about every length, every parameter value and every input, so only a proof by induction/algebra can settle it.", "anchors": ["meridian/analysis/optimizer.py: OptimizationGrid.trim_grids"]}
{"id": "C28", "title": "The rounding step is fine enough", "statement": "get_round_factor: rounding the budget to the returned power of ten changes it by at most 1/2 when gtol*budget < 1 and at most 5*gtol*budget otherwise. (The documented bound gtol*budget: refuted.)", "quantifier": "every positive budget and gtol in (0,1)", "why_tests_cant": "A unit test fixes a handful of tensors; the claim is about every length, every parameter value and every input, so only a proof by induction/algebra can settle it.", "anchors": ["meridian/analysis/optimizer.py: get_round_factor"]}
{"id": "C29", "title": "Spreading a budget over geos and times preserves the total", "statement": "When new budgets are spread by flighting pattern or by population, the allocated values are non-negative, keep the pattern, and sum (at the historical unit costs) to the requested total for every channel. (Refuted for channels without historical spend: any new budget buys no media.)", "quantifier": "every population vector, flighting pattern and budget", "why_tests_cant": "A unit test fixes a handful of tensors; the claim is about every length, every parameter value and every input, so only a proof by induction/algebra can settle it.", "anchors": ["meridian/analysis/optimizer.py: _allocate_tensor_by_population, _create_budget_dataset"]}
{"id": "C30", "title": "Outcome decomposition is exact", "statement": "At every geo and time, expected outcome = baseline expected outcome + sum over all paid, organic and non-media channels of their incremental outcome; hence channel and baseline contribution percentages add up to 100%.", "quantifier": "every parameter draw, every data set, any mix of channel types", "why_tests_cant": "A unit test fixes a handful of tensors; the claim is about every length, every parameter value and every input, so only a proof by induction/algebra can settle it.", "anchors": ["meridian/analysis/analyzer.py: expected_outcome, incremental_outcome, _calculate_baseline_expected_outcome, summary_metrics"]}
{"id": "C31", "title": "Incremental outcomes add up to the difference between two scenarios", "statement": "The incremental outcomes of all channels add up to the expected outcome with the treatments of the executed periods multiplied by scaling_factor1 minus the one with them multiplied by scaling_factor0 and the non-media treatments at their baseline; also when the second scenario (all media zero) is skipped by the code. The 'All Channels' entry of the summaries is that total.", "quantifier": "every data set, parameter draw, pair of scaling factors, selection and set of executed periods", "why_tests_cant": "A unit test fixes a handful of tensors; the claim is about every length, every parameter value and every input, so only a proof by induction/algebra can settle it.", "anchors": ["meridian/analysis/analyzer.py: incremental_outcome, compute_incremental_outcome_aggregate", "meridian/analysis/tensors.py: build_counterfactual_inputs"]}
{"id": "C32", "title": "Results do not depend on batch_size", "statement": "expected_outcome and incremental_outcome return the same draws in the same order for every batch_size>=1, each equal to the result for that draw alone; no result for batch_size<=0.", "quantifier": "every number of draws and batch sizes", "why_tests_cant": "A unit test fixes a handful of tensors; the claim is about every length, every parameter value and every input, so only a proof by induction/algebra can settle it.", "anchors": ["meridian/analysis/analyzer.py: _yield_batched_distribution_tensors, expected_outcome, incremental_outcome"]}
{"id": "C33", "title": "Aggregation is consistent with selection", "statement": "Summing over geos/times the per-geo per-time results over a selection equals the aggregated result for that selection; disjoint selections of geos add up; exactly the selected geos and dates are taken. For tensors without channel dimension this needs leading dimensions that cannot be read as (geo, time, channel): refuted otherwise, the draw dimension is then taken for the geos.", "quantifier": "every tensor, every selection of geos and times", "why_tests_cant": "A unit test fixes a handful of tensors; the claim is about every length, every parameter value and every input, so only a proof by induction/algebra can settle it.", "anchors": ["meridian/analysis/analyzer.py: filter_and_aggregate_by_indices"]}
{"id": "C34", "title": "Per-geo summaries are labelled with the right geo", "statement": "Each value of a non-aggregated summary is labelled with the geo it was computed from. Holds when selected_geos is given in input order; every other order is mislabelled. (That every order is labelled correctly: refuted; values come in input order, labels in the user's order.)", "quantifier": "every selection of geos", "why_tests_cant": "Tests pass selected_geos in input order.", "anchors": ["meridian/analysis/analyzer.py: summary_metrics, baseline_summary_metrics", "meridian/analysis/tensors.py: _resolve_geo_indices"]}
{"id": "C35", "title": "Response curves are the documented outcome at every multiplier, monotone from the origin", "statement": "At every multiplier the curve of a paid channel holds that multiple of the spend of the selection against the mean and interval, over the draws, of the outcome of that multiple of the media (minus the outcome of none); every curve passes through the origin; with non-negative coefficients mean and both ends of the interval never decrease with the multiplier; negative multipliers are refused; with use_optimal_frequency the same holds for the impressions at the posterior-optimal frequencies. (That the spend axis is the spend within the selection also for spend given per channel: refuted.)", "quantifier": "every well-formed model with any mix of treatments, every set of draws, new data, selection, multiplier list and confidence level", "why_tests_cant": "A unit test fixes a handful of tensors; the claim is about every length, every parameter value and every input, so only a proof by induction/algebra can settle it.", "anchors": ["meridian/analysis/analyzer.py: response_curves"]}
{"id": "C36", "title": "ROI, marginal ROI and CPIK are the documented quotients of outcome and spend", "statement": "In every draw and for every paid channel (and geo): Analyzer.roi times the spend of the selected geos and periods is the incremental outcome of the channel on the data used; marginal_roi times the additional spend is the outcome of the additional media; cpik times the incremental KPI is the spend; the quotients are undefined exactly where the denominator is zero; cpik is the reciprocal of the ROI in KPI units; non-negative coefficients give non-negative ROI; the ROI over all geos is the spend-weighted mean of the ROI of the geos. If the model's own spend is given per channel only, asking for selected geos, selected periods or single geos raises an exception. (That new spend per channel is refused with a selection of periods, as the documentation says: refuted; the outcome of the selected periods is divided by the whole spend.)", "quantifier": "every well-formed model with any mix of treatments, every draw, new data and spend of the historical shape, spend per channel or per geo and period, every selection", "why_tests_cant": "A unit test fixes a handful of tensors; the claim is about every length, every parameter value and every input, so only a proof by induction/algebra can settle it.", "anchors": ["meridian/analysis/analyzer.py: roi, marginal_roi, cpik, _validate_geo_and_time_granularity", "meridian/analysis/tensors.py: DataTensors.total_spend"]}
{"id": "C37", "title": "optimal_freq picks a frequency maximising mean ROI and reports the metrics there", "statement": "The returned frequency of each channel is the first one of the grid whose mean ROI over the draws is at least that of every other grid frequency, impressions and spend unchanged; the ROI table holds the ROI at every grid frequency; the optimized outcome, ROI, marginal ROI, effectiveness and CPIK are those at the returned frequencies; the default grid is 1, 1.1, 1.2, ... below the given or historical maximum; spend given per channel is never accepted. (That confidence_level governs the returned intervals: refuted, the optimized metrics always carry 90% intervals.)", "quantifier": "every well-formed model with reach and frequency, every set of draws, grid of positive frequencies, selection and new impressions and spend", "why_tests_cant": "A unit test fixes a handful of tensors; the claim is about every length, every parameter value and every input, so only a proof by induction/algebra can settle it.", "anchors": ["meridian/analysis/analyzer.py: optimal_freq", "meridian/analysis/tensors.py: _build_unscaled_data_tensors"]}
{"id": "C38", "title": "Builder output is aligned whatever the order of calls", "statement": "If InputDataBuilder.build() succeeds, all arrays carry the same geos, times and media times, without repetition and in natural order; the times are the last media times when each date is written one way; each cell holds the value supplied for its labels by a call, none is missing; what an accepted call supplied is what the result holds; a national model has population one; there is a KPI, media come exactly with spend, reach exactly with frequency and spend, organic reach exactly with frequency, and there are paid media of some kind; KPI, controls, revenue per KPI, non-media treatments and spends share one time axis, media and organic media another - whatever failed calls happened in between. All calls of a history are accepted exactly when each array is well formed and any two fit, hence in any order, and the result does not depend on the order if no two geos are tied in the natural order. (That rejected calls leave no trace, and that the order never matters: refuted.)", "quantifier": "every history of setter calls, including failing ones, and every permutation of an accepted one", "why_tests_cant": "Histories of calls are unbounded.", "anchors": ["meridian/data/input_data_builder.py: InputDataBuilder"]}
{"id": "C39", "title": "Channel-ordered arguments are in channel order", "statement": "OrderedListArgumentBuilder returns one value per coordinate, in coordinate order, equal to the keyword given for that name or else the default last set; without default the names must match exactly, with a default every call is accepted; the order of the keywords does not matter; the builders of the input data are bound to its media, RF, organic and paid channels in the order of the data. (That unknown names are reported: refuted, with a default they are silently ignored.)", "quantifier": "every coordinate list and keyword mapping", "why_tests_cant": "A unit test fixes a handful of tensors; the claim is about every length, every parameter value and every input, so only a proof by induction/algebra can settle it.", "anchors": ["meridian/data/arg_builder.py: OrderedListArgumentBuilder"]}
{"id": "C40", "title": "Counterfactual data merging keeps given and default tensors apart", "statement": "validate_and_fill_missing_data returns for each required variable the user's new tensor if given and the model's own otherwise, and nothing else but a given time; unused tensors are reported. It succeeds exactly when every required tensor that is given is one the model has, with the model's geos and channels, and either no given tensor changes the number of periods or every required tensor the model has is given with the new number. An optimal frequency replaces the frequencies and keeps the impressions. (That all accepted tensors agree on the number of periods, that a tensor reported as ignored does not matter, and that wrong lengths are a ValueError: refuted.)", "quantifier": "every model, every combination of new tensors and shapes, every list of required variables", "why_tests_cant": "A unit test fixes a handful of tensors; the claim is about every length, every parameter value and every input, so only a proof by induction/algebra can settle it.", "anchors": ["meridian/analysis/tensors.py: DataTensorsBuilder"]}
{"id": "C41", "title": "Weekly optimization grids combine independently of order", "statement": "Combining two or more weekly grids succeeds exactly when they have the same attributes, channels and multipliers and their weeks form one run of consecutive weeks; the result has every week once in order, and is the same for every order of the inputs and whether they are combined at once or in parts. The grid made from it for a period uses exactly the weeks of the period; its outcome at a spend is the sum of the weekly ones, linear between multipliers; its spends exceed the range of the multipliers by no more than the rounding. The multipliers are increasing and leave no gap wider than the step. (That a single grid is checked, that no spend is outside the multipliers, that every declared budget and default constraint is covered: refuted.)", "quantifier": "every list of weekly grids and every permutation of it; every period, budget and constraints; all multiplier ranges and steps", "why_tests_cant": "A unit test fixes a handful of tensors; the claim is about every length, every parameter value and every input, so only a proof by induction/algebra can settle it.", "anchors": ["meridian/analysis/weekly_optimization_grid.py: combine"]}
{"id": "C42", "title": "Seeded random streams are reproducible", "statement": "With the same seeds a program that holds any number of RNG handlers obtains the same seeds whatever the state of the global generator; what a handler answers depends on the requests to that handler only, for every interleaving; asking for a kernel seed does not advance it; successive requests use successive states of the generator; the seeds of the first batches of chains do not depend on the number of batches; exactly None, integers and pairs of integers are accepted. (That advance_handler returns a handler independent of what was handed out: refuted under JAX, it is the handler of the very kernel seed just handed out.)", "quantifier": "every generator (split and draw functions), every set of seeds and every interleaved sequence of requests", "why_tests_cant": "Histories of requests are unbounded.", "anchors": ["meridian/backend/__init__.py: RNGHandler implementations"]}
{"id": "C43", "title": "Tensor serialisation round-trips", "statement": "Under the JAX backend make_ndarray(make_tensor_proto(x)) is x - same type, shape and elements - for every supported dtype, shape and content except single-element uint32 or uint64 arrays and empty arrays with some non-zero dimension of a type other than float32, float64, int32, int64 and bool; these are refused, never altered. Different surviving arrays have different messages. (That all supported arrays survive: refuted.)", "quantifier": "every dtype, shape and content", "why_tests_cant": "A unit test fixes a handful of tensors; the claim is about every length, every parameter value and every input, so only a proof by induction/algebra can settle it.", "anchors": ["meridian/backend/__init__.py: _jax_make_tensor_proto, _jax_make_ndarray"]}
{"id": "C44", "title": "Date bucketing partitions the selected dates", "statement": "Monthly, quarterly and yearly bucketers return, in order and without overlap, exactly the intervals from the first available date of a bucket (if in its first seven days) to the first available date of the next bucket. Holds when neighbouring dates are less than about ten (eight) months apart; refuted otherwise: dates in the same month of different years are merged. Also refuted: every bucket but the last is reported (none is for dates after the 7th).", "quantifier": "every increasing list of dates", "why_tests_cant": "A unit test fixes a handful of tensors; the claim is about every length, every parameter value and every input, so only a proof by induction/algebra can settle it.", "anchors": ["meridian/schema/utils/date_range_bucketing.py"]}
{"id": "C45", "title": "A zero history in front of the data does not change adstock", "statement": "Prepending periods of zero media to the history leaves every adstock output unchanged when the supplied history covers max_lag+1 periods. Refuted for shorter histories: the weights are normalised over the supplied history only, so adding explicit zeros changes the result.", "quantifier": "every media tensor, number of prepended periods, lag and decay", "why_tests_cant": "A unit test fixes a handful of tensors; the claim is about every length, every parameter value and every input, so only a proof by induction/algebra can settle it.", "anchors": ["meridian/model/adstock_hill.py: _adstock"]}
{"id": "C46", "title": "Spend totals are allocated without loss", "statement": "Spend given as one total per channel is spread over geos and periods of the model window in proportion to media units (impressions for reach and frequency) and adds up to the given total; spend given per geo and period is used unchanged.", "quantifier": "every spend vector, media tensor and window length with non-zero units", "why_tests_cant": "A unit test fixes a handful of tensors; the claim is about every length, every parameter value and every input, so only a proof by induction/algebra can settle it.", "anchors": ["meridian/data/input_data.py: _allocate_spend, allocated_media_spend, allocated_rf_spend"]}
{"id": "C47", "title": "Model specs are accepted exactly when well formed", "statement": "Constructing a model spec succeeds exactly when: the media effects distribution is known, the deprecated common prior type is not combined with the separate ones, every prior type is allowed for its treatment type, calibration periods are two-dimensional and used with ROI priors only, knots are a non-zero integer or a non-empty list of integers and not combined with automatic knot selection, and every saturation name is known. Otherwise ValueError.", "quantifier": "every combination of options", "why_tests_cant": "The options interact; the acceptance condition is about all combinations.", "anchors": ["meridian/model/spec.py: ModelSpec.__post_init__, _validate_roi_calibration_period"]}
{"id": "C48", "title": "Posterior draws are exactly the transitions after burn-in, in chain order", "statement": "For every list of chain-batch sizes the stored posterior has one row per chain in the order of the sampler calls, its d-th draw is the state after the burn-in plus d transitions of that chain, and the stored trace and sampling statistics belong to the same transition.", "quantifier": "every list of chain batches, burn-in and number of kept draws", "why_tests_cant": "A unit test fixes a handful of tensors; the claim is about every length, every parameter value and every input, so only a proof by induction/algebra can settle it.", "anchors": ["meridian/model/posterior_sampler.py: PosteriorMCMCSampler.__call__"]}
{"id": "C49", "title": "Automatically selected knots are usable and AIC-minimal", "statement": "For every KPI, number of geos and candidate fits, automatic knot selection returns knots that are strictly increasing, lie inside the time window, contain the required endpoints, number between the requested bounds, minimise the information criterion over the admissible fits along the path of penalties (the last one on ties), and are accepted by the knot-weight construction; the documented inputs that cannot be satisfied are rejected with an exception.", "quantifier": "every data size, base penalty path, regression outcome and knot bounds", "why_tests_cant": "A unit test fixes a handful of tensors; the claim is about every length, every parameter value and every input, so only a proof by induction/algebra can settle it.", "anchors": ["meridian/model/knots.py: AKS.automatic_knot_selection, AKS.aspline"]}
{"id": "C50", "title": "The penalised regression behind knot selection finds its minimiser", "statement": "The band solver returns the only solution of every symmetric positive definite band system; the penalty matrix is the weighted sum of squared coefficient differences; the adaptive ridge step returns the unique minimiser of the penalised least-squares objective from any starting point. Refuted for totality: if the response is orthogonal to the basis (constant KPI) it raises instead of returning zero coefficients.", "quantifier": "every design matrix, response, weights, penalty, band width, size and iteration budget", "why_tests_cant": "A unit test fixes a handful of tensors; the claim is about every length, every parameter value and every input, so only a proof by induction/algebra can settle it.", "anchors": ["meridian/model/knots.py: AKS._bandsolve_kernel, AKS._bandsolve, AKS._band_weight, AKS._mat2rot, AKS._hessian_solver, AKS._weighted_ridge_solver"]}
{"id": "C51", "title": "Period bounds are contiguous and follow the calendar", "statement": "The periods reported for a time selection start exactly at the selected dates, each ends where the next begins, none is empty; they are available exactly for regularly spaced coordinates and at least two selected dates; the last period has the common interval (fixed cadence) or ends on the same day of the next month/quarter/year (calendar cadence). Refuted for fixed cadences of 28-31, 90-92 or 365-366 days, whose last period is stretched to the calendar unit.", "quantifier": "every list of valid dates and every selection", "why_tests_cant": "A unit test fixes a handful of tensors; the claim is about every length, every parameter value and every input, so only a proof by induction/algebra can settle it.", "anchors": ["meridian/data/time_coordinates.py: get_period_bounds, interval_days, _is_regular_time_index"]}
{"id": "C52", "title": "Optimizing over a grid respects constraints and budget end to end", "statement": "OptimizationGrid.optimize on a grid with step 10^k: every optimized spend is a grid point within the constraints applied to the channel's rounded share of the budget (up to half a step); with a fixed budget the optimized total is at most the total of the rounded shares, hence exceeds the requested budget by at most half a step per channel. (Never exceeding the requested budget: refuted; total_budget=0: refuted, replaced by the historical total.)", "quantifier": "every grid, outcome table, history, share vector, scenario and constraints", "why_tests_cant": "A unit test fixes a handful of tensors; the claim is about every length, every parameter value and every input, so only a proof by induction/algebra can settle it.", "anchors": ["meridian/analysis/optimizer.py: OptimizationGrid.optimize, trim_grids, _grid_search, get_optimization_bounds, get_round_factor, _validate_pct_of_spend"]}
{"id": "C53", "title": "Reach and frequency grid columns are stabilised without changing proportional outcomes", "statement": "Before the search, the outcome column of a reach/frequency channel is replaced by a constant ROI times spend. A column that already is proportional to spend is left unchanged (JAX: always; TensorFlow: for non-negative ROI), and both backends agree iff the largest spend has the largest outcome. (Refuted for TensorFlow and a negative ROI: exact outcomes -10,-20 become -5,-10.)", "quantifier": "every increasing spend column, every outcome column and NaN padding", "why_tests_cant": "A unit test fixes a handful of tensors; the claim is about every length, every parameter value and every input, so only a proof by induction/algebra can settle it.", "anchors": ["meridian/backend/__init__.py: _jax_stabilize_rf_roi_grid, _tf_stabilize_rf_roi_grid", "meridian/analysis/optimizer.py: _create_grids"]}
{"id": "C54", "title": "Flighting data built from units, spend and costs is consistent", "statement": "create_optimization_tensors accepts exactly the argument combinations with one of units/spend plus a broadcastable cost per kind of channel, a frequency iff the optimal one is not used, and a broadcastable revenue per KPI; in the result units*cost=spend and reach*frequency*cost=spend in every cell, totals are preserved, and broadcast arguments apply to the cells they name. (Refuted for zero frequencies: the spend stays but the impressions vanish.)", "quantifier": "every combination of arguments of every shape, every population", "why_tests_cant": "A unit test fixes a handful of tensors; the claim is about every length, every parameter value and every input, so only a proof by induction/algebra can settle it.", "anchors": ["meridian/analysis/optimizer.py: create_optimization_tensors, _validate_optimization_tensors, _expand_tensor"]}
{"id": "C55", "title": "The optimizer's grid and its reported data describe the same media", "statement": "For the same spend, the reach/frequency data used to fill the optimization grid and the data used for the reported outcome give the same media effect, with historical and with optimal frequency; impressions scale with spend.", "quantifier": "every spend, history, frequency, parameter and saturation/decay choice", "why_tests_cant": "A unit test fixes a handful of tensors; the claim is about every length, every parameter value and every input, so only a proof by induction/algebra can settle it.", "anchors": ["meridian/analysis/optimizer.py: _get_incremental_outcome_tensors, _update_incremental_outcome_grid"]}
{"id": "C56", "title": "Non-media effects do not depend on media scaling", "statement": "The incremental outcome of a non-media treatment is the same for every pair of scaling factors, every set of executed media periods and both values of by_reach; with the default (minimum) baseline and non-negative coefficients it is never negative.", "quantifier": "every data set, parameter draw and admissible request", "why_tests_cant": "A unit test fixes a handful of tensors; the claim is about every length, every parameter value and every input, so only a proof by induction/algebra can settle it.", "anchors": ["meridian/analysis/analyzer.py: incremental_outcome, get_incremental_kpi", "meridian/analysis/tensors.py: build_counterfactual_inputs, compute_non_media_treatments_baseline"]}
{"id": "C57", "title": "The incremental outcome of a channel is the effect of changing that channel alone", "statement": "The incremental outcome reported for a channel equals the expected outcome of the historical data with only that channel multiplied by scaling_factor1 in the executed periods, minus the one with only that channel multiplied by scaling_factor0 (for a non-media treatment: held at its baseline value); the channels come in the documented order media, RF, organic media, organic RF, non-media.", "quantifier": "every data set, any mix of channel kinds, parameter draw and admissible request", "why_tests_cant": "A unit test fixes a handful of tensors; the claim is about every length, every parameter value and every input, so only a proof by induction/algebra can settle it.", "anchors": ["meridian/analysis/analyzer.py: incremental_outcome, expected_outcome, _get_transformed_media_and_beta", "meridian/model/equations.py: adstock_hill_media, adstock_hill_rf"]}
{"id": "C58", "title": "Expected and incremental outcomes are the documented linear predictor of the data and the draws", "statement": "For every posterior draw, Analyzer.expected_outcome(new_data=...) returns, in each cell, the sum over the selected geos and periods of the outcome of the linear predictor: geo effect + time effect + every media, reach-and-frequency, organic media and organic reach-and-frequency channel's coefficient times its own documented adstock/Hill response of the (population- and median-scaled) media + standardised controls and non-media treatments times their coefficients; the outcome is (value*stdev+mean)*population of the KPI, times revenue per KPI unless KPI units are asked for and the KPI is not revenue. The incremental outcome of a channel is the difference of its own term under the two scaling factors in the same units. Scaling factors that are negative or not increasing, and revenue without inverse transform, are refused.", "quantifier": "every well-formed model with any mix of treatments, every draw, every selection and aggregation, every new_data of the historical shape, all scaling factors and units", "why_tests_cant": "A unit test fixes a handful of tensors; the claim is about every length, every parameter value and every input, so only a proof by induction/algebra can settle it.", "anchors": ["meridian/analysis/analyzer.py: Analyzer.expected_outcome, incremental_outcome, _get_kpi_means, _get_transformed_media_and_beta, _inverse_outcome", "meridian/model/equations.py"]}
{"id": "C59", "title": "Every reported mean, median and credible interval is the documented summary of the draws", "statement": "Analyzer.get_central_tendency_and_ci summarises the draws of a quantity: the interval of level c has the (1-c)/2 and (1+c)/2 linear-interpolation quantiles of the draws as its ends, the median is the 1/2 quantile and the mean the average. For 0 <= c the median lies in the interval; all four lie between the smallest and the largest draw; a higher level gives a wider interval around the same median and mean, level 1 gives the range of the draws; the order of chains and draws does not matter; a quantity that is larger in every draw has larger summaries; changing units commutes with summarising. (That the mean lies inside the interval, and that a confidence level outside [0,1] is refused: refuted.)", "quantifier": "every non-empty list of draws and every confidence level", "why_tests_cant": "A unit test fixes a handful of tensors; the claim is about every length, every parameter value and every input, so only a proof by induction/algebra can settle it.", "anchors": ["meridian/analysis/analyzer.py: get_central_tendency_and_ci, _central_tendency_and_ci_by_prior_and_posterior"]}
{"id": "C60", "title": "The summary table holds the documented metrics and its percentages add up", "statement": "Analyzer.summary_metrics reports, for every paid channel, the channel total, every selected geo and period, prior and posterior: the mean, median and interval of the incremental outcome of the channel, its percentage of the mean expected outcome, its impressions, spend, shares of impressions and spend, CPM, and, where the rows can be compared with spend, ROI, marginal ROI, CPIK and effectiveness as quotients of those quantities. The shares of spend add up to 100. With the non-paid channels included, the mean outcomes of all channels and of the baseline add up to the mean expected outcome and their mean contributions to 100 percent. (That the optimal_frequency argument changes the outcome metrics, as its documentation says: refuted; it changes only impressions, CPM and effectiveness.)", "quantifier": "every well-formed model, draws, new data of the historical shape, selection, aggregation, metric, confidence level and batch size", "why_tests_cant": "A unit test fixes a handful of tensors; the claim is about every length, every parameter value and every input, so only a proof by induction/algebra can settle it.", "anchors": ["meridian/analysis/analyzer.py: summary_metrics, baseline_summary_metrics, get_aggregated_impressions"]}
{"id": "C61", "title": "The goodness of fit table holds the documented metrics of the right observations", "statement": "Analyzer.predictive_accuracy returns R-squared, MAPE and wMAPE of the pairs (expected outcome averaged over the draws, observed outcome) of the selected geos and periods: one pair per geo and period at the geo level, one pair of sums over geos per period at the national level, and with a holdout those of the training, test and all observations. A label is missing only for the geo level of a national model and for train and test without holdout. R-squared is at most 1, MAPE is not negative, wMAPE is not negative for non-negative outcomes; a model that reproduces the data has R-squared 1 and errors 0. Training and test observations of the geo level partition all of them. (That the national periods of train and test partition the periods, and that selected_times may be given as booleans with a holdout: refuted.)", "quantifier": "every well-formed model, holdout, draws, selection of geos and periods, outcome unit and batch size", "why_tests_cant": "A unit test fixes a handful of tensors; the claim is about every length, every parameter value and every input, so only a proof by induction/algebra can settle it.", "anchors": ["meridian/analysis/analyzer.py: predictive_accuracy, _predictive_accuracy_helper, filter_and_aggregate_geos_and_times"]}
{"id": "C62", "title": "The probability of a negative baseline is the share of draws with a negative baseline", "statement": "Analyzer.negative_baseline_probability returns the number of draws in which the outcome without any media and with non-media treatments at their baseline values, summed over the selected geos and periods, is negative, divided by the number of draws; it lies between 0 and 1.", "quantifier": "every well-formed model, list of draws, baseline values, selection, outcome unit and batch size", "why_tests_cant": "A unit test fixes a handful of tensors; the claim is about every length, every parameter value and every input, so only a proof by induction/algebra can settle it.", "anchors": ["meridian/analysis/analyzer.py: negative_baseline_probability, _calculate_baseline_expected_outcome"]}
{"id": "C63", "title": "The aggregated spend table reports what was spent and is additive", "statement": "Analyzer.get_aggregated_spend has one column per paid channel of the kinds asked for, in the order of the channel names, and with aggregate_times=False one labelled row per selected period. An entry is the spend of the channel in the selected geos and that period (or all selected periods); spend given per channel only is spread over geos and periods in proportion to media units or impressions. Without selection it is the total spend of the channel; the rows of the periods add up to the aggregated entry, and complementary sets of geos add up to all geos. Asking for neither kind is refused. (That the total is always reported: refuted; a channel with spend but without impressions gives NaN when spend is given per channel.)", "quantifier": "every well-formed model, spend of either granularity for each kind, new data of the historical shape, selection of geos and periods, and choice of kinds", "why_tests_cant": "A unit test fixes a handful of tensors; the claim is about every length, every parameter value and every input, so only a proof by induction/algebra can settle it.", "anchors": ["meridian/analysis/analyzer.py: get_aggregated_spend, _impute_and_aggregate_spend"]}
{"id": "C64", "title": "R-hat diagnostics and the convergence verdict reflect every R-hat value", "statement": "Analyzer.get_rhat reports NaN for a Hill parameter exactly where the channel has no saturation curve and leaves every other value unchanged. Analyzer.rhat_summary has one row for each parameter the prior does not fix, with the number of values, the mean and maximum of the values that are numbers, the share of all values above the threshold and exactly the positions above it; an array of more than two dimensions is refused. The convergence check says converged exactly when every R-hat value is below the first threshold and not converged exactly when one reaches the second, and names a parameter that attains the maximum. (That a model whose numeric R-hat values are all below the threshold is always reported as converged: refuted; if the first parameter has no numeric R-hat the check reports no convergence.)", "quantifier": "every table of R-hat values of any shapes with NaN anywhere, every choice of saturation curves and every pair of thresholds", "why_tests_cant": "A unit test fixes a handful of tensors; the claim is about every length, every parameter value and every input, so only a proof by induction/algebra can settle it.", "anchors": ["meridian/analysis/analyzer.py: get_rhat, rhat_summary, _mask_hill_parameters_for_linear_channels", "meridian/analysis/review/checks.py: ConvergenceCheck.run"]}
{"id": "C65", "title": "The model review runs the right checks and its verdict follows from their results", "statement": "ModelReviewer.run on a model that did not converge fails with score 0 and runs nothing else. Otherwise it returns the convergence result followed by the results of the relevant checks in order; the overall status is FAIL exactly when some result fails and PASS otherwise, and the message tells whether some result asks for a review. The default battery on a fitted model runs the baseline, p-value and goodness of fit checks, the shift check if ROI priors are used, and the ROI consistency check if one of them is custom. (That the default review of a converged model always returns a summary: refuted; it raises KeyError when media and reach and frequency channels have different prior types and one is ROI. That any battery may be passed: refuted; one without the three model checks raises ValueError after running.)", "quantifier": "every convergence result, every battery of checks, every well-formed fitted model with posterior draws, holdout, geo and time selection, and every combination of prior types", "why_tests_cant": "A unit test fixes a handful of tensors; the claim is about every length, every parameter value and every input, so only a proof by induction/algebra can settle it.", "anchors": ["meridian/analysis/review/reviewer.py: ModelReviewer.run, _is_relevant, _compute_health_score", "meridian/analysis/review/checks.py: is_relevant"]}
{"id": "C66", "title": "The health score is the documented weighted mean and never rewards worse results", "statement": "The health score is the mean of the points of the check results weighted 30, 30, 10, 15 and 15 for baseline, p-value, goodness of fit, shift and ROI consistency, over the results that are present; baseline points fall linearly between the two thresholds, p-value points are 0 or 100, fit points are a logistic function of R-squared and channel points a power of the share of passing channels. It lies in [0, 100), improving any result never lowers it, and without the three required results it is refused. (That a passing check gets its points: refuted, a p-value equal to the threshold passes and scores 0. That the score is a number: refuted, it is NaN when R-squared is.)", "quantifier": "every list of check results with any thresholds and any number of channels", "why_tests_cant": "A unit test fixes a handful of tensors; the claim is about every length, every parameter value and every input, so only a proof by induction/algebra can settle it.", "anchors": ["meridian/analysis/review/reviewer.py: _compute_health_score, _get_baseline_score, _HEALTH_SCORE_COMPONENTS"]}
{"id": "C67", "title": "The model-level quality checks compute what they document", "statement": "The baseline check reports the share of posterior draws in which the outcome without media, over the selected geos and periods, is negative; it fails above the fail threshold and asks for review from the review threshold on. The p-value check reports the share of draws whose total expected outcome is at least as far from the posterior mean as the observed total; it fails below its threshold. The goodness of fit check reports the national R-squared, MAPE and wMAPE for all data and, with a holdout, for train and test data; it asks for review exactly when one of these R-squared values is at most the threshold.", "quantifier": "every well-formed fitted model, set of posterior draws, holdout, geo and time selection, batch size and configuration", "why_tests_cant": "A unit test fixes a handful of tensors; the claim is about every length, every parameter value and every input, so only a proof by induction/algebra can settle it.", "anchors": ["meridian/analysis/review/checks.py: BaselineCheck, BayesianPPPCheck, GoodnessOfFitCheck"]}
{"id": "C68", "title": "The channel-level quality checks classify every channel and respect the tolerance", "statement": "The ROI consistency check reports every channel once: quantile not defined if the prior has no quantile, infinite if one of its quantiles is, low or high if the posterior mean is outside the prior quantiles, and pass otherwise; it passes exactly when all quantiles are finite and the number of channels outside is tolerated. The shift check marks a channel as shifted exactly when for the mean, median or a quartile fewer than a share alpha of the bootstrap samples lie on one side of the prior's value; it passes exactly when the number of channels without shift is tolerated. Failing channels are tolerated if there are none, or if their number or their share is within a configured limit; limits outside their range are refused. (That a posterior equal to the prior is reported as no shift: refuted for constant ones.)", "quantifier": "every set of channel names, posterior draws, prior quantiles and statistics (one for all or one per channel), bootstrap columns, levels and tolerances", "why_tests_cant": "A unit test fixes a handful of tensors; the claim is about every length, every parameter value and every input, so only a proof by induction/algebra can settle it.", "anchors": ["meridian/analysis/review/checks.py: ROIConsistencyCheck, PriorPosteriorShiftCheck, _bootstrap, _get_shifted_mask", "meridian/analysis/review/configs.py: ChannelCheckConfig"]}
{"id": "C69", "title": "The calibration checks flag exactly the channels their rules name", "statement": "The implausible ROI check flags a channel as high when posterior mean times spend share exceeds the upper bound and as low when posterior mean over spend share is below the lower bound; a channel without spend is never low. The high variance check flags a channel when the width of the posterior interval relative to the absolute median, divided by the prior's relative width and multiplied by the spend share, exceeds the threshold. The potential bias check flags a channel when its correlations with the controls, where defined, are all below the threshold in absolute value, and asks for review when there are no controls. Each asks for review exactly when a channel is flagged. (That a wide interval is flagged whatever the median: refuted for median 0. That a channel unrelated to all controls is flagged: refuted for channels that do not vary over time.)", "quantifier": "every spend vector, set of posterior draws, interval function, media and control series and thresholds", "why_tests_cant": "A unit test fixes a handful of tensors; the claim is about every length, every parameter value and every input, so only a proof by induction/algebra can settle it.", "anchors": ["meridian/analysis/review/checks.py: ImplausibleROICheck, HighVarianceCheck, PotentialBiasCheck, _calculate_spend_share"]}
{"id": "C70", "title": "A model specification survives being saved and loaded", "statement": "Saving the hyperparameters of a model specification and loading them gives a valid specification in which every field is kept: effects distribution, prior types, flags, max_lag, calibration, holdout and scaling arrays, the adstock and saturation function of every channel, the knots, the baseline geo and the baseline values of the non-media treatments, whose names are lower-cased and whose numbers take single precision. It is the same specification if the numbers are single precision ones and the knots are not a one element list, and saving and loading once more changes nothing. (That every valid specification comes back: refuted; a list with the location of one knot comes back as a number of knots, at location 0 it cannot be loaded at all, a baseline value with more digits changes, a NumPy integer as baseline geo is forgotten, and an undocumented baseline name is saved but cannot be loaded.)", "quantifier": "every valid model specification whose integers and arrays fit the message, every rounding to single precision", "why_tests_cant": "A unit test fixes a handful of tensors; the claim is about every length, every parameter value and every input, so only a proof by induction/algebra can settle it.", "anchors": ["meridian/schema/serde/hyperparameters.py: HyperparametersSerde.serialize, deserialize, converters", "meridian/model/spec.py: ModelSpec"]}
{"id": "C71", "title": "Prior distributions survive being saved and loaded and custom functions are checked", "statement": "Saving a prior whose distributions have known classes, 32-bit integers, arrays and functions that are registered or defaults succeeds, and loading it with the same registry gives the same classes and parameters, numbers rounded to single precision and the very same functions. Whatever loads with another registry without force is the saved prior, with custom functions replaced only by functions whose source has the same fingerprint. A custom function that is not registered is refused when saving; a registered function that is missing or whose source changed makes loading fail with ValueError, whether or not the prior uses it; force changes nothing when loading without it succeeds. (That parameters come back exactly: refuted; a Python bool comes back as an int and a number with more digits changes. That a changed function is always noticed: refuted for closures with one source text. That default functions come back: refuted inside a dict.)", "quantifier": "every nesting of distributions, bijectors, lists and dicts, every pair of registries, every table of known classes and defaults, every source and fingerprint function", "why_tests_cant": "A unit test fixes a handful of tensors; the claim is about every length, every parameter value and every input, so only a proof by induction/algebra can settle it.", "anchors": ["meridian/schema/serde/distribution.py: DistributionSerde.serialize, deserialize, _to_parameter_value_proto, _unpack_tfp_parameters", "meridian/schema/serde/function_registry.py: FunctionRegistry.validate, hashed_registry, get_function_key"]}
{"id": "C72", "title": "Input data are accepted exactly when they are consistent", "statement": "Constructing input data succeeds exactly when the KPI type is revenue or non-revenue; the revenue per KPI, if given, is not zero everywhere; no array has a missing value; KPI, spend, reach, frequency and (for a non-revenue KPI) revenue per KPI are nowhere negative; the geos are distinct and all arrays list them in the same order; controls, non-media treatments and revenue per KPI have as many periods as the KPI and media at least as many; the KPI and media dates are in order and evenly spaced; media or reach is present; channels of spend, reach and frequency agree; and no channel name occurs twice among paid, organic and non-media channels. Otherwise it raises ValueError. The data kept are those given, with a revenue per KPI of one everywhere for a revenue KPI, and copying the data accepts them again. (That the dates of controls or media match those of the KPI, that media come with spend, that spend covers the same geos and periods, that dates are distinct, and that control names are distinct: refuted, none of them is checked.)", "quantifier": "every combination of arrays, labels, dates and values", "why_tests_cant": "A unit test fixes a handful of tensors; the claim is about every length, every parameter value and every input, so only a proof by induction/algebra can settle it.", "anchors": ["meridian/data/input_data.py: InputData.__post_init__, _validate_kpi, _validate_names, _validate_dimensions, _validate_times, _validate_no_negative_values", "meridian/data/validator.py: check_coords_match"]}
{"id": "C73", "title": "Saved input data are loaded back", "statement": "Input data whose arrays fit together (named geos; media arrays of one and the same list of dates, among them the KPI dates; controls, non-media treatments, revenue per KPI and spend by period on the KPI dates; no array without channels, no control name twice; spend with media, reach with frequency; reach below 2^63) can be saved as a message, the message can be loaded, and loading gives the same KPI, KPI type, population, controls, revenue per KPI, media, spend (by geo and period, or in total), frequency, organic media, non-media treatments and currency, with the same labels in the same order, and reach rounded down to whole numbers. If all reach is in whole numbers the data are the same, so saving what was loaded and loading it again changes nothing. Whatever message is loaded, each KPI and media value of the result stands in a data point of the message for that geo, date and channel: nothing is filled in, and incomplete messages are refused. (That all accepted input data come back: refuted. Fractional reach is cut off, KPI periods without media are dropped silently, and controls of the same name are merged.)", "quantifier": "every acceptable input data, every message", "why_tests_cant": "A unit test fixes a handful of tensors; the claim is about every length, every parameter value and every input, so only a proof by induction/algebra can settle it.", "anchors": ["meridian/schema/serde/marketing_data.py: MarketingDataSerde.serialize, MarketingDataSerde.deserialize, _InputDataSerializer, _InputDataDeserializer", "meridian/schema/utils/time_record.py: convert_times_to_date_intervals"]}
{"id": "C74", "title": "Saved models are loaded back", "statement": "A model whose input data, specification, prior, EDA specification and samples can be written can be saved, the message can be loaded with the functions it was saved with, and the loaded model has the same input data (reach rounded down), the same specification and prior (numbers in single precision as described in C70 and C71), the same EDA specification, the same number of knots, the backend and precision of the process that loads it, and the same samples: every group with its variables, dimensions, labels and values, whole numbers included. A warning is given exactly when backend or precision were recorded and differ. Samples can be saved if and only if their integers fit in 64 bits. Whatever message is loaded, the samples of the result fit the model's data (chains aside, every labelled dimension has the model's size), and automatically chosen knots are those of the version that saved the model. If a function of the EDA specification was removed, renamed or changed its source, loading fails unless it is forced. (That every saved model can be loaded: refuted for a single knot location other than 1 and for functions registered under the empty name. That the summary of the model review comes back: refuted.)", "quantifier": "every model, every registry of functions, every message, every version", "why_tests_cant": "A unit test fixes a handful of tensors; the claim is about every length, every parameter value and every input, so only a proof by induction/algebra can settle it.", "anchors": ["meridian/schema/serde/meridian_serde.py:MeridianSerde.serialize", "meridian/schema/serde/meridian_serde.py:MeridianSerde.deserialize", "meridian/schema/serde/eda_spec.py", "meridian/schema/serde/inference_data.py", "meridian/schema/serde/function_registry.py"]}
{"id": "C75", "title": "Model files hold what was last saved to them", "statement": "After save_meridian returned, and whatever has been saved to other files since, with success, an exception or an interruption, load_meridian on the file gives what the message of that model gives. At every moment of a save the other files are as they were and no file or directory is gone. Wherever a save to a .binpb file is interrupted, the file is as it was, or loading it raises an exception, or it holds the model: no part of a saved file loads as a model. So after any history of saves, failures and interruptions a .binpb file that loads is as it was at the beginning or holds the model of one save to it, as that save left it. A model that has a message below 2 GB is saved to every path with one of the three extensions whose directory exists or can be made. (That a failing or interrupted save leaves the earlier model: refuted; the file is emptied first. That a model can be saved to a bare file name in the current directory: refuted.)", "quantifier": "every file system, every path, every model, every crash point, every history of saves", "why_tests_cant": "A unit test fixes a handful of tensors; the claim is about every length, every parameter value and every input, so only a proof by induction/algebra can settle it.", "anchors": ["meridian/schema/serde/meridian_serde.py: save_meridian, load_meridian"]}
{"id": "C76", "title": "Optimizations use a grid made for the request", "statement": "Budget arguments that do not belong together (a target with a fixed budget, a nonpositive budget, a budget without fixed_budget, no target or two) raise ValueError. Without a given grid, optimize() uses a grid whose step is one unit or the smallest power of ten above budget times gtol, that holds every multiple of the step within the constraints on the requested split of the requested budget, with the outcomes of the requested data, distribution, geos, period and frequency; each optimized spend is a multiple of the step within the constraints up to half a step, and with a fixed budget the optimized total is at most the rounded one. A request in order, with positive spend, is always answered. A given grid made for another distribution, outcome, frequency choice, period, channel list or set of geos changes nothing: the result, or exception, is that without a grid. Over all geos a grid made for another budget, split or constraints and the same step gives the spends of a fresh grid. (That a grid made from other data or with another tolerance gives the result of a fresh one, that a grid for selected geos never makes a request fail, that an empty selection of geos is refused, that a target ROI of zero works or is refused with ValueError: refuted.)", "quantifier": "every number of channels, every spend, outcome function, budget, split, constraint, tolerance and given grid", "why_tests_cant": "A unit test fixes a handful of tensors; the claim is about every length, every parameter value and every input, so only a proof by induction/algebra can settle it.", "anchors": ["meridian/analysis/optimizer.py: BudgetOptimizer.optimize, _validate_grid, create_optimization_grid, _validate_budget"]}
{"id": "C77", "title": "The posterior that is sampled is that of the documented model", "statement": "The log density given to the sampler at any values of the sampled parameters equals the sum of their prior log densities, the standard normal log densities of the geo-level deviations, and, over the KPI cells that are not held out, the normal log densities of the standardised KPI around the documented linear predictor at the parameters that are saved for that draw. The graph used for sampling and the one used to save the draws agree on all sampled quantities; the saved geo effects, time effects and geo-level coefficients are the documented functions of the sampled ones, and saved draws are accepted by the analysis functions. With priors on coefficients the density is defined for all parameters in their domains.", "quantifier": "every model with consistent data, every specification of prior types, knots, holdout and effects, every value of the sampled parameters", "why_tests_cant": "A unit test fixes a handful of tensors; the claim is about every length, every parameter value and every input, so only a proof by induction/algebra can settle it.", "anchors": ["meridian/model/posterior_sampler.py: _joint_dist_base_logic, _joint_dist_unpinned, _joint_dist_sampling, _pin_dist"]}
{"id": "C78", "title": "Prior draws are draws of the model whose posterior is sampled", "statement": "For the same values of the parameters, prior sampling and the joint distribution of the posterior contain the same named quantities with the same distributions and values, apart from the KPI, or neither is defined. A prior draw draws every parameter of the model exactly once, from its own distribution with its own seed; the saved geo effects, time effects and coefficients are the documented functions of the drawn parameters, are accepted by the analysis functions, and are the ones a posterior draw at the same values would save. (When organic reach and frequency have another prior type than organic media: refuted, the type of organic media is used.)", "quantifier": "every model with consistent data, every specification, every outcome of the random number generator", "why_tests_cant": "A unit test fixes a handful of tensors; the claim is about every length, every parameter value and every input, so only a proof by induction/algebra can settle it.", "anchors": ["meridian/model/prior_sampler.py: PriorDistributionSampler.__call__, _sample_media_priors, _sample_rf_priors, _sample_organic_media_priors, _sample_organic_rf_priors, _sample_non_media_treatments_priors, _get_tau_g", "meridian/model/posterior_sampler.py: _joint_dist_base_logic", "meridian/constants.py: UNSAVED_PARAMETERS"]}
{"id": "C79", "title": "A data frame is loaded cell by cell, whatever the order of its rows", "statement": "If a data frame is loaded, then every cell of every resulting array is the value that the frame has in the row of that geo and period and in the column mapped to that array and channel, and every value in a column that is read is in its array; channels keep the order of the columns. Every geo then has every period in exactly one row. Population is the mean over the rows of a geo, and one in a national model. The result, or the error, does not depend on the order of the rows. A frame in the documented layout - every geo and period once, media in all periods, the rest missing exactly in initial periods - is accepted. (An empty control column is reported: refuted, it is dropped. The documented layout with a revenue KPI, revenue per KPI and longer media is accepted: refuted. Media columns are used: refuted, without spend columns they are ignored when there are reach and frequency. Geos are never mixed: refuted, KPI of one geo and media of another are loaded as a national model.)", "quantifier": "every data frame, column mapping, order of rows and labels", "why_tests_cant": "A unit test fixes a handful of tensors; the claim is about every length, every parameter value and every input, so only a proof by induction/algebra can settle it.", "anchors": ["meridian/data/load.py: CoordToColumns, DataFrameDataLoader", "meridian/data/data_frame_input_data_builder.py: DataFrameInputDataBuilder"]}
{"id": "C80", "title": "A model is accepted exactly when its data tell its channels apart", "statement": "For data with positive populations and non-negative media, constructing a model succeeds exactly when: the arrays of the specification have the documented shapes; without revenue there is no default mROI prior, and default ROI priors are on all paid channels or on none; the media priors have allowed support; every channel of every control, treatment and medium varies over time in some geo by at least 1/10000 of its unit (median non-zero value of media, standard deviation otherwise); in a geo model either every channel also varies between geos in some period or there are fewer knots than periods; every paid channel has non-zero spend; and the KPI per capita is not constant if some prior is on ROI, mROI or contribution. The total contribution prior is set exactly when there is no revenue and all paid channels have the default ROI prior. (Impressions that vary through frequency alone suffice: refuted. Any variation suffices: refuted. Scaled media of an accepted model are numbers: refuted, a population of zero is accepted.)", "quantifier": "every input data set, model specification, number of geos, periods and channels, and KPI threshold up to one", "why_tests_cant": "A unit test fixes a handful of tensors; the claim is about every length, every parameter value and every input, so only a proof by induction/algebra can settle it.", "anchors": ["meridian/model/context.py: ModelContext", "meridian/model/model.py: Meridian._validate_kpi_variability", "meridian/model/eda/eda_engine.py: EDAEngine.kpi_has_variability"]}
{"id": "C81", "title": "Sampling is refused exactly for constant KPIs and collinear variables", "statement": "The posterior is sampled exactly when the sample standard deviation of the scaled KPI reaches its threshold, no two treatments or controls have a correlation above the threshold in absolute value over all geos and periods, and no variable that varies has a variance inflation factor (total variation over the smallest squared error of predicting it from a constant and the other varying variables) above the threshold; otherwise sampling raises an error and the posterior held before is kept. So two variables tied by a line are never sampled together (threshold below one), nor is a variable that is a combination of the others; with a threshold of one or more no pair is reported. The verdict on pairs does not depend on the units of the variables. Each check reports at least one finding, and information only on its own; attention is asked exactly for what is extreme in some geo and not overall. A check that raises counts as an error and does not hide the others. (Variables tied by a line within each geo are refused: refuted. A variable that is the sum of two others is refused however little they vary: refuted.)", "quantifier": "every data set, number of geos, periods and variables, all non-negative thresholds, every result of the sampler and previous posterior", "why_tests_cant": "A unit test fixes a handful of tensors; the claim is about every length, every parameter value and every input, so only a proof by induction/algebra can settle it.", "anchors": ["meridian/model/eda/eda_engine.py: EDAEngine.run_all_critical_checks, check_pairwise_corr, check_vif, check_overall_kpi_invariability", "meridian/model/model.py: Meridian._run_model_fitting_guardrail, sample_posterior"]}
{"id": "C82", "title": "Every parameter has the prior set for it, and priors outside the parameter space are refused", "statement": "Priors are accepted exactly when, wherever the support of a distribution can be found out, it lies in the parameter space: decay rates between 0 and 1 and not fixed at 1, deviations not negative, parameters of saturation curves not negative and not fixed at 0; otherwise there is a ValueError. Accepted priors (with at most one dimension) can be given to a model exactly when every parameter of channels has one law or one for each channel and, in national models, parameters between geos are not fixed in a batch of several numbers. Every parameter then has the documented shape, and each element has the law set for it: the only one or its own; in national models parameters between geos are zero, and where the prior is on the total contribution of media the ROI priors follow from it. Broadcasting twice changes nothing. A parameter is reported as fixed exactly when it was set to a Deterministic distribution that is used, or is between geos in a national model. The default priors fit every model. (The support is always checked: refuted. NaN is refused: refuted. One zero for each channel is accepted for national models: refuted. Shapes that do not fit are always refused: refuted for knots. Geos share one noise parameter unless specified: refuted. Parameters of channels have one element for each channel when priors have two dimensions: refuted. Slopes of one never give a warning: refuted.)", "quantifier": "all priors (any batch shapes and laws), all numbers of geos, channels, controls and knots, national or not, with or without a total contribution prior", "why_tests_cant": "A unit test fixes a handful of tensors; the claim is about every length, every parameter value and every input, so only a proof by induction/algebra can settle it.", "anchors": ["meridian/model/prior_distribution.py: PriorDistribution.__post_init__, PriorDistribution.broadcast, PriorDistribution.has_deterministic_param, _validate_support, _convert_to_deterministic_0_distribution"]}
{"id": "C83", "title": "A distribution made of several has their elements in order, but its draws are not independent", "statement": "IndependentMultivariateDistribution accepts a list of distributions exactly when it is not empty, none is Deterministic, each has at most one dimension and all have the same dtype (ValueError otherwise), and has as many elements as they have together. Draws, log densities, quantiles, log distribution functions, the bijector, means and variances hold, at every place, those of the element whose place it is, in the order given. A number or a vector of one number is used for all elements; other lengths raise ValueError. The joint log density of parts is the sum of theirs. Putting distributions together in steps gives the same as putting them together at once. (Elements are drawn independently: refuted, equal distributions give the same number in every draw.)", "quantifier": "all lists of distributions with any batch sizes, all values and all seeds", "why_tests_cant": "A unit test fixes a handful of tensors; the claim is about every length, every parameter value and every input, so only a proof by induction/algebra can settle it.", "anchors": ["meridian/model/prior_distribution.py: IndependentMultivariateDistribution"]}
{"id": "C84", "title": "When a prior counts as the default one", "statement": "The comparison of distributions that decides whether a prior is the default answers yes exactly for distributions of the same class, holding the same distributions, whose parameters have the same names and agree up to the documented tolerances (a single number standing for an array), provided arrays under the same name can be compared; a distribution equals itself. At construction the warnings about ignored priors name exactly the priors of paid media and paid reach and frequency effects that the chosen types of prior leave unread and that are not the default ones. (That the comparison is symmetric, that it is transitive, that only the law matters and not the name, that a distribution equal to the default is the default, that the comparison always answers, and that every ignored custom prior is warned about, organic and non-media ones included: refuted.)", "quantifier": "every two distributions, nested to any depth, with parameters of any number; every prior and default prior and both types of prior", "why_tests_cant": "A unit test fixes a handful of tensors; the claim is about every length, every parameter value and every input, so only a proof by induction/algebra can settle it.", "anchors": ["meridian/model/prior_distribution.py:distributions_are_equal", "meridian/model/context.py:_warn_setting_ignored_priors", "meridian/constants.py:IGNORED_PRIORS_MEDIA", "meridian/constants.py:IGNORED_PRIORS_RF", "meridian/constants.py:IGNORED_PRIORS_ORGANIC_MEDIA"]}
{"id": "C85", "title": "The report of a budget optimization describes the media its spend buys, and its totals, warnings and charts agree", "statement": "The two data sets of an optimization describe the media that the given spend buys at the historical cost per unit: media and impressions of every channel in proportion to its spend, at the optimal frequency where there is one, and nothing where nothing was ever spent. For these, each channel's incremental outcome, effectiveness, ROI, marginal ROI and CPIK are the mean, the median and the interval over the draws of the quantity the name says; ROIs are undefined exactly where nothing is spent; the shares of spend times the budget are the spends. Budget, profit and total outcome belong together: the total outcome is the sum of the channels' and the total ROI the average of the channels' ROIs weighted with their shares of spend. Total CPIK times total ROI is never less than one. A target ROI is warned about exactly if the total outcome falls short of it (for a positive budget), a target marginal ROI exactly if some channel gets nothing or falls short. The charts of changes have one bar per channel, losses first, the largest on top; the waterfall climbs from the old total outcome to the new one. The limits drawn on response curves are the limits on spend in units of historical spend, and the curves reach all of them. (That total CPIK is the budget over the total outcome: refuted, it is the mean over the draws of the quotient, larger as soon as two draws differ. That the report says whether its outcome is revenue: refuted, for a KPI that is not revenue and has no revenue per KPI. That missing a target ROI is always warned about: refuted if nothing is spent. That waterfall bars join up for every set of channel names: refuted for a channel called optimized.)", "quantifier": "every model, posterior or prior sample, spend, historical spend, new data, selection of geos and periods, frequency, confidence level, target and set of bounds", "why_tests_cant": "A unit test fixes a handful of tensors; the claim is about every length, every parameter value and every input, so only a proof by induction/algebra can settle it.", "anchors": ["meridian/analysis/optimizer.py: BudgetOptimizer._create_budget_dataset, BudgetOptimizer._get_incremental_outcome_tensors, _raise_warning_if_target_constraints_not_met, OptimizationResults._get_delta_data, OptimizationResults._transform_outcome_delta_data, OptimizationResults.plot_incremental_outcome_delta, OptimizationResults.get_response_curves, OptimizationResults._get_plottable_response_curves_df, BudgetOptimizer.optimize"]}
{"id": "C86", "title": "Outliers, series without variation and implausible unit costs are reported, each exactly when the documentation says", "statement": "The table of outliers of an array lists, once each and the largest in absolute value first, exactly the values that lie more than one and a half times the distance of the quartiles outside the quartiles of their geo and variable. The check of standard deviations asks for attention exactly if some series of the KPI, the treatments and controls, or the paid or organic reach and frequency varies less than the threshold once its outliers are removed, or holds an outlier; otherwise it reports that there is nothing to report. A national model is checked on national data, another on its geos. The number of outliers of a series is at most a quarter of its values on each side, so none among fewer than four; it does not depend on units or origin. A series that takes one value in more than three quarters of at least two periods is always reported, and all its other values are outliers. The check of unit costs lists exactly the cells with units without cost or cost without units, and those whose cost per unit is an outlier among the unit costs of their geo and channel; units bought at one price per geo and channel raise nothing. (That every constant series is reported: refuted, not one known in one period only. That a jump of the price of a unit by a factor of a thousand is reported: refuted, not with three periods on air.)", "quantifier": "every data set, with missing values, every number of geos, periods and variables, every threshold", "why_tests_cant": "A unit test fixes a handful of tensors; the claim is about every length, every parameter value and every input, so only a proof by induction/algebra can settle it.", "anchors": ["meridian/model/eda/eda_engine.py: EDAEngine.check_std, EDAEngine.check_geo_std, EDAEngine.check_national_std, EDAEngine.check_geo_cost_per_media_unit, EDAEngine.check_national_cost_per_media_unit, _calculate_outliers, _calculate_std, _check_cost_media_unit_inconsistency, _check_cost_per_media_unit"]}
{"id": "C87", "title": "The exploratory checks see the periods of the KPI, and their national data are the geos' data put together", "statement": "Media, reach and frequency are checked in the periods of the KPI, the last ones of the media periods, scaled media as the model scales them. National reach and national media are the sums over the geos; national frequency is the average of the geos' frequencies weighted with reach, between their extremes, zero where nobody is reached, and reach times frequency are the impressions of all geos. National media are scaled so that the median of their non-zero values is one; national controls, non-media treatments and KPI have mean zero and mean square one unless constant, and summing or averaging over the geos makes no difference. The reach and frequency data exist exactly if every such channel is on air in some period of the KPI; if not, the critical checks report an error and the posterior cannot be sampled. (That a model that can be built can be checked: refuted by a channel on air only in media periods before the first period of the KPI; sampling is then refused.)", "quantifier": "every data set with any number of geos, media periods, KPI periods and channels, every population and aggregation", "why_tests_cant": "A unit test fixes a handful of tensors; the claim is about every length, every parameter value and every input, so only a proof by induction/algebra can settle it.", "anchors": ["meridian/model/eda/eda_engine.py: EDAEngine._truncate_media_time, EDAEngine._scale_xarray, EDAEngine._aggregate_variables, EDAEngine._aggregate_and_scale_geo_da, EDAEngine._get_rf_data, EDAEngine.national_media_scaled_da, EDAEngine.run_all_critical_checks", "meridian/model/model.py: Meridian.sample_posterior"]}
{"id": "C88", "title": "The tables behind the adstock and Hill plots show the transformations of the model", "statement": "The adstock table can be made exactly if the largest lag is at most 1000 periods; at each whole lag it draws, it has the mean and interval of the weight of that lag in the model's adstock average relative to lag zero, for the channel's own decay function and each distribution; with more media periods than lags every curve starts at 1, never rises and stays in [0, 1]. The Hill table can be made for every fitted model; for each channel it has 500 points from zero to the largest media by capita (or frequency), with the statistics of the Hill function there in the model's own unit; every curve starts at 0, never falls and stays in [0, 1]. The histogram has bins of equal width over all the values on the axis, with area one and largest scaled count one. (That the table works for every largest lag, that it includes the largest lag, that effects are never negative, that a channel without saturation is drawn as the model transforms it, and that the column of counts holds counts: refuted.)", "quantifier": "every fitted model with any channels, data, decay functions, draws, largest lag, level and number of bins", "why_tests_cant": "A unit test fixes a handful of tensors; the claim is about every length, every parameter value and every input, so only a proof by induction/algebra can settle it.", "anchors": ["meridian/analysis/analyzer.py: Analyzer.adstock_decay, Analyzer._get_adstock_dataframe, Analyzer.hill_curves, Analyzer._get_hill_curves_dataframe, Analyzer._get_hill_histogram_dataframe, Analyzer._get_channel_hill_histogram_dataframe", "meridian/model/adstock_hill.py: compute_decay_weights"]}
{"id": "C89", "title": "What is chosen or looked up by channel name is the channel's own", "statement": "A mapping from channel names to decay (or saturation) functions in the model specification is accepted exactly if its keys are channels of the model and, for decay, its values are the recognised functions; then every channel, of whichever kind and position, is transformed with the function chosen for it, or the default if the mapping does not name it, and the order of the mapping does not matter. Looking up a channel's parameters answers exactly for channels, with its own position, kind and decay function; its scaling factor is the number its own column is divided by; its slice of a parameter tensor is taken from the tensor of its kind at its own position; other names are refused with a ValueError. (That a channel may be called 'self', that a channel sharing a control's name has a scaling factor, and that an unset parameter gives the documented error: refuted.)", "quantifier": "every set of channels of all kinds with distinct names, every mapping or single name, every channel and parameter name, and all transformers and tensors", "why_tests_cant": "A unit test fixes a handful of tensors; the claim is about every length, every parameter value and every input, so only a proof by induction/algebra can settle it.", "anchors": ["meridian/model/context.py: ModelContext.adstock_decay_spec, ModelContext.saturation_spec, ModelContext.get_channel_parameters, ModelContext.get_media_scaling_factor, ModelContext.get_channel_parameter_tensor", "meridian/data/arg_builder.py: OrderedListArgumentBuilder", "meridian/model/adstock_hill.py: AdstockDecaySpec"]}
{"id": "C90", "title": "Labelled incremental outcomes carry the labels of what they hold", "statement": "The incremental outcome as a labelled array can be made for every valid request; the geo and time labels are the names of the selected geos and periods (by name, by date or by booleans) in the order of the data, every channel is labelled with its own name, and the entry under the labels of a geo, a period and a channel is the documented incremental outcome of that channel in that geo and period. The same holds for the paid channels on new media data of the historical length. (That such data are labelled with the dates given with them: refuted.)", "quantifier": "every fitted model and draws, any selection of geos and periods, aggregation, scaling factors and channels of all kinds", "why_tests_cant": "A unit test fixes a handful of tensors; the claim is about every length, every parameter value and every input, so only a proof by induction/algebra can settle it.", "anchors": ["meridian/analysis/analyzer.py: Analyzer.incremental_outcome_xr, Analyzer.incremental_outcome", "meridian/data/input_data.py: InputData.get_all_channels, InputData.get_all_paid_channels"]}
{"id": "C91", "title": "The table of expected and actual outcomes holds the sums and intervals its labels name", "statement": "The comparison of expected and actual outcomes can be made for every fitted model; the actual outcome of a cell is the observed outcome summed over the geos and periods the cell stands for, and the expected and the baseline outcomes are the mean and the bounds of the credible interval of the sums of the draws over these geos and periods; the mean of everything is the sum of the means of the cells. With a split by the holdout, the values of all data are the same as without it, and the values of the training (test) set are those of the cells made only of training (test) observations. (That sums are split, that is, that the value of a set is the sum over the observations of the set: refuted, one observation of the other kind makes the sum NaN. That the number of draws does not matter: refuted, with as many draws and periods as geos the sums over periods are sums over geos.)", "quantifier": "every fitted model and draws, aggregation over geos and periods, units, holdout, baseline values and confidence level", "why_tests_cant": "A unit test fixes a handful of tensors; the claim is about every length, every parameter value and every input, so only a proof by induction/algebra can settle it.", "anchors": ["meridian/analysis/analyzer.py: Analyzer.expected_vs_actual_data, Analyzer._mean_and_ci_by_eval_set, Analyzer.filter_and_aggregate_by_indices, get_central_tendency_and_ci"]}
{"id": "C92", "title": "Thinning keeps evenly spread joint draws of every chain, and the full posterior can be restored", "statement": "Thinning a posterior which is not thinned is accepted exactly for one of a rate in (0, 1] and a number of draws between 1 and the number there is; the result has all chains, in each chain the number of draws asked for (the rate rounded up), each at most once, in order, evenly spread, every draw with the same chance, and the values of all variables at a kept draw are those of that draw. In every history of thinning, restoring and reviewing a fit, the posterior is the fit or a once thinned version of it, and restoring gives the fit. (After a new fit, restoring gives the new fit: refuted, the old one replaces it. A thinning which preserves the original can be undone: refuted when all draws are kept. The health summary is about the posterior of the model: refuted after a new fit.)", "quantifier": "every posterior, number of draws or rate, generator output, and history of calls", "why_tests_cant": "A unit test fixes a handful of tensors; the claim is about every length, every parameter value and every input, so only a proof by induction/algebra can settle it.", "anchors": ["meridian/model/model.py: Meridian.posterior_thinning, Meridian.restore_full_posterior, Meridian.sample_posterior, Meridian.review, Meridian.health_summary, _systematic_draw_indices"]}
{"id": "C93", "title": "Draws are stored under the right labels, and a model takes back the draws and health summaries it produced", "statement": "Every posterior and prior draw can be stored: the stored group holds exactly the saved parameters, and each axis of each parameter is labelled by the chains, the draws, and the geos, periods, knots, controls or channels its entries stand for. A model constructed with, or loaded with, draws accepts those it stored; it accepts draws exactly when the numbers of geos, periods, knots, controls, non-media variables and channels of each kind agree, and otherwise raises ValueError. A health summary is accepted exactly when it holds a failed convergence check alone, or one result of each check of the model with, possibly, the channel checks of one entry per paid channel; every summary of the default review is accepted. (Draws of a model with other geos, periods or channel names are refused: refuted, only sizes are compared. Draws without parameters are refused: refuted. An accepted summary is one a review can return: refuted. Every summary of a review is accepted: refuted for further checks.)", "quantifier": "every model, specification, draw, number of chains and draws, stored group and health summary", "why_tests_cant": "A unit test fixes a handful of tensors; the claim is about every length, every parameter value and every input, so only a proof by induction/algebra can settle it.", "anchors": ["meridian/model/context.py: create_inference_data_coords, create_inference_data_dims", "meridian/constants.py: INFERENCE_DIMS", "meridian/model/model.py: _validate_injected_inference_data, _validate_injected_inference_data_group, _validate_injected_health_summary, _is_valid_results_subset", "meridian/schema/serde/meridian_serde.py: MeridianSerde.deserialize"]}
{"id": "C94", "title": "Data built from plain arrays: every cell is the one given for its labels", "statement": "For every history of calls to the builder from arrays without labels - giving geos, periods and media periods, and the arrays in any order, failing calls included - each array of the built data comes from one call; its geos and periods are those in force at that call, sorted; its names are those of the call; and the cell of a geo, period and name is the array's cell at their positions (ones for the revenue per KPI of a revenue KPI). The arrays of accepted calls are all there. A call is accepted exactly when the coordinates were given, every array has the documented shape, names are not repeated, and none of its arrays was given before; otherwise ValueError is raised. (Data with organic reach and frequency can be built: refuted, never. National arrays without a geo axis, as documented, are accepted: refuted. A single geo may be given under its own name: refuted. A call that raises changes nothing: refuted, it fixes the geos.)", "quantifier": "every history of calls, array, set of labels and order of the coordinates", "why_tests_cant": "A unit test fixes a handful of tensors; the claim is about every length, every parameter value and every input, so only a proof by induction/algebra can settle it.", "anchors": ["meridian/data/nd_array_input_data_builder.py: NDArrayInputDataBuilder", "meridian/data/input_data_builder.py: InputDataBuilder.build", "meridian/data/input_data.py: InputData._validate_names"]}
{"id": "C95", "title": "The contribution table: each row is what the channel adds, the baseline is the rest", "statement": "For every fitted model, settings, selection of channels and history of calls that left the settings alone, MediaSummary.contribution_metrics has for every period one row for the baseline and one for each selected channel, sorted by period and then by decreasing outcome. The outcome of a paid channel is the posterior mean of what it adds, its share that outcome over the expected outcome; with the other treatments the rows are the means of the summary of all channels, and what they leave is the mean of the table of the baseline. Without a selection the shares of a period add up to one and the outcomes to the expected outcome. An unknown channel raises KeyError. The chart of spend and contribution has for every paid channel its share of the outcome, its share of the spend and its ROI, which is also rescaled so that the largest ROI meets the largest share. (The outcome of the baseline is always in the table: refuted, it is NaN when the channels add nothing in total.)", "quantifier": "every fitted model, settings, selected channels, aggregation and history of calls", "why_tests_cant": "A unit test fixes a handful of tensors; the claim is about every length, every parameter value and every input, so only a proof by induction/algebra can settle it.", "anchors": ["meridian/analysis/visualizer.py: MediaSummary.contribution_metrics, MediaSummary._calculate_contribution_dataframe, MediaSummary._calculate_baseline_contribution_dataframe, MediaSummary._transform_contribution_spend_metrics"]}
{"id": "C96", "title": "Repeated summaries: a MediaSummary object answers by its settings", "statement": "For every history of objects created, settings changed and calls made, in any order and with results kept between calls, an object whose settings were not changed answers by its own settings, whatever was asked before of it or of other objects; an object not asked yet answers by its last update of settings; every answer is the right one for settings the object had at some moment; and at most 128 results of each kind are kept. (update_summary_metrics takes effect: refuted, a call made before returns the old result for every change of settings; the same call with the argument given by position instead of by name then gives a different answer; the contribution table after a change of periods has channels for the old periods and the baseline for the new ones.)", "quantifier": "every history of objects, changes of settings and calls", "why_tests_cant": "A unit test fixes a handful of tensors; the claim is about every length, every parameter value and every input, so only a proof by induction/algebra can settle it.", "anchors": ["meridian/analysis/visualizer.py: MediaSummary.get_paid_summary_metrics, MediaSummary.get_all_summary_metrics, MediaSummary.update_summary_metrics, MediaSummary.contribution_metrics"]}
{"id": "C97", "title": "Building the weekly grid: each entry is what a channel brings in a week at a multiplier", "statement": "For every fitted model, new data, optional optimal frequencies, selected weeks, list of multipliers and batch size, WeeklyOptimizationGrid.create makes one entry per paid channel, multiplier and selected week, in this order of labels: the mean over the draws of the outcome the channel brings in that week over all geos, when its media (its reach, at the optimal frequency with the same impressions) are multiplied in every period, against none; beside it stands the spend of the channel in that week. The batch size does not change the result. A multiplier of zero gives zero; a larger multiplier never gives less when the coefficients are not negative; the entries over all weeks add up to the outcome of the corresponding point of the response curve; and each entry is the mean of incremental_outcome for that channel with these scaling factors, whenever use_kpi is not set for a revenue model. (For a revenue model with use_kpi set: refuted, the grid ignores the new revenue per KPI that incremental_outcome multiplies by.)", "quantifier": "every fitted model, new data, frequencies, weeks, multipliers and batch size", "why_tests_cant": "A unit test fixes a handful of tensors; the claim is about every length, every parameter value and every input, so only a proof by induction/algebra can settle it.", "anchors": ["meridian/analysis/weekly_optimization_grid.py: WeeklyOptimizationGrid.create"]}
{"id": "C98", "title": "The scenario planner's historical spend is the spend in the input data", "statement": "For all input data that InputData accepts and whose arrays fit together, the spends that the scenario planner reads from the saved message between two dates (end excluded) are, for each paid media or reach-and-frequency channel with spend by geo and period, the sum of its spend over all geos and the periods inside; for an organic channel zero; and there is no entry for any other name. Spend given by channel only counts in full if the first media period is inside and not at all otherwise. The lists of channels are alphabetical without repetitions. For any message whatsoever the spends of two adjacent intervals add up to those of the whole and asking never fails. (That an interval with KPI periods shows some of the spend given by channel only: refuted. That the planner's media channels are the paid ones: refuted, organic media are among them.)", "quantifier": "all accepted input data with arrays that fit together, all pairs of dates; for adjacent intervals every message", "why_tests_cant": "A unit test fixes a handful of tensors; the claim is about every length, every parameter value and every input, so only a proof by induction/algebra can settle it.", "anchors": ["scenarioplanner/converters/mmm.py: MarketingData.media_channel_spends, MarketingData.rf_channel_spends, MarketingData.all_channel_spends, MarketingData.media_channels, DateInterval.__contains__", "meridian/schema/serde/marketing_data.py: MarketingDataSerde.serialize"]}
{"id": "C99", "title": "Budget optimization results repeat their spec and report bounds that were kept", "statement": "For every list of budget optimization specs that the processor answers: there is one result per spec, in order, and no group id is used twice. Each result reports, channel by channel in the order of the model, an interval of spend that contains the optimized spend; its ends lie within half a grid step of (1 - lower) and (1 + upper) times the non-optimized spend, with the last constraint given for that channel or 1 and 2. Without a grid of its own the non-optimized spend is the channel's historical share of the budget to half a step, a fixed budget is not exceeded, and the reported grid runs step by step over exactly the reported interval with the outcomes of the requested periods. The reported period is the one that was optimized with its end made exclusive, every statistic lands in the field of its name with the spec's confidence level, and response curves come in order of spend. Every well-formed spec is answered; constraints for unknown channels or in absolute terms and a budget of zero are refused with ValueError. The scenario planner accepts whatever the processor returns and its tables have one row for every reported constraint, optimized channel, curve point and grid cell, in order and with the values in the columns of their names. (That a channel without a constraint may take the whole budget: refuted. That an open budget is reported as the historical total: refuted. That every scenario that can be constructed can be run: refuted. That the KPI type of a spec and of its outcomes agree: refuted. That different grids get different table names: refuted.)", "quantifier": "all models, lists of specs, constraints, scenarios, supplied grids with increasing spend, historical spends that are nonnegative, all response functions", "why_tests_cant": "A unit test fixes a handful of tensors; the claim is about every length, every parameter value and every input, so only a proof by induction/algebra can settle it.", "anchors": ["meridian/schema/processors/budget_optimization_processor.py: BudgetOptimizationProcessor.execute, BudgetOptimizationSpec, build_constraints_kwargs, build_scenario_kwargs, to_marketing_analysis, to_incremental_outcome_grid", "meridian/schema/processors/model_processor.py: DatedSpecResolver, OptimizationSpec", "scenarioplanner/converters/dataframe/budget_opt_converters.py: NamedOptimizationGridConverter, BudgetOptimizationSpecsConverter, BudgetOptimizationResultsConverter, BudgetOptimizationResponseCurvesConverter", "scenarioplanner/converters/mmm.py: BudgetOptimizationSpec, BudgetOptimizationResult"]}
{"id": "C100", "title": "Numbers in reports say what was computed to the digits they show", "statement": "Every number written in compact form carries the largest of the units one, k, M, B, T that is not larger than it, reads back within half of its last digit, has a minus sign exactly when it is negative and its currency after that sign; what is read never puts two numbers in the wrong order. Amounts of money of at least 1 read back within 5%. Percentages from 1% on are whole numbers within half a point, smaller positive ones have one significant digit within a third of the value. Column headings differ from the names only by spaces for underscores and capitals at the start of words. The scenario plan of an optimization report has six figures under their titles, each written from the dataset it is named after, with a plus sign exactly on budgets and outcomes that grew; its sentence names the whole percentages just below the two spend constraints when one constraint holds for all channels and none otherwise. The allocation table has every channel once, the largest optimized share first, with both shares within half a point. (That the digits before a unit stay below 1000: refuted, 999999 is 1000k. That a minus sign means a negative amount is shown: refuted. That cents are shown within 5%: refuted. That percentages between 0 and 1 have one decimal place: refuted. That negative percentages are whole numbers: refuted, -55% is -6e+01%. That the change under an ROI is the difference of the ROIs shown: refuted. That every change that is an increase has a plus sign: refuted for the cost per incremental unit. That a report exists when that cost is infinite: refuted. That spend stays in the range the sentence names: refuted. That the shares of the table add up to 100: refuted. That letters after an apostrophe stay small: refuted.)", "quantifier": "all rational numbers, precisions, currency strings, column names, pairs of budget datasets, spend constraints and lists of channel shares", "why_tests_cant": "A unit test fixes a handful of tensors; the claim is about every length, every parameter value and every input, so only a proof by induction/algebra can settle it.", "anchors": ["meridian/templates/formatter.py: format_percent, compact_number, format_number_text, format_monetary_num, format_col_names", "meridian/analysis/optimizer.py: OptimizationResults._create_scenario_plan_section, _create_scenario_stats_specs, _create_budget_allocation_table"]}
{"id": "C101", "title": "Marketing analyses cover the periods and channels asked for, with the analyzer's figures, and the planner's tables repeat them", "statement": "A marketing analysis spec can be built exactly when start is not after end, the confidence level is strictly between 0 and 1, and exactly one of a media summary and an incremental outcome (whose new data, if any, is dated) is asked for. Its dates resolve exactly when start is the start of a period and end the end of one; the periods are then exactly those within [start, end). Every list of such specs is answered if the analyzer answers, with the analyses of each spec in order: one over all its periods or one for each of them, with the right dates and tag; a media analysis for every paid channel (and All Channels), a non-media analysis for every unpaid channel if asked for, and for media summaries the baseline last. Each figure is the analyzer's for that channel and period: means with the interval at the level asked for, medians for the cost per incremental unit, percentages as fractions, no effectiveness or marginal ROI for All Channels, a second set of figures about the KPI exactly for a non-revenue KPI with a revenue per KPI, response curves only for aggregated periods. The planner's outcome, spend and ROI tables of media summaries of which one is tagged ALL have, for each analysis, the baseline and then every channel once with those figures; the outcome shares of the paid channels are renormalised to add up to one. (That the media times of a media summary or the unpaid channels of an incremental outcome are honoured: refuted, they change nothing. That every analysis has a baseline, so that the planner can show it: refuted for incremental outcomes. That the planner needs no tag: refuted. That a spec that can be built is answered: refuted for start = end, for quarters of monthly data and for the documented example dates. That the baseline is about the periods of the new data: refuted. That new data about later periods can be analysed by period: refuted. That All Channels is a media analysis: refuted when unpaid channels are included. That All Channels sorts last: refuted. That the ROI shown by period is the ROI: refuted, it is zero. That the spend table exists: refuted when outcome shares add up to zero.)", "quantifier": "all lists of specs, calendars, channel lists, KPI kinds, new data and analyzer tables of the documented shape", "why_tests_cant": "A unit test fixes a handful of tensors; the claim is about every length, every parameter value and every input, so only a proof by induction/algebra can settle it.", "anchors": ["meridian/schema/processors/marketing_processor.py: MarketingAnalysisSpec, MarketingProcessor.execute", "meridian/schema/processors/model_processor.py: DatedSpec, DatedSpecResolver", "scenarioplanner/converters/mmm.py: MarketingAnalysis, Mmm.tagged_marketing_analyses", "scenarioplanner/converters/dataframe/marketing_analyses_converters.py: MediaOutcomeConverter, MediaSpendConverter, MediaRoiConverter"]}
{"id": "C102", "title": "Reach and frequency optimization chooses the best tenth between the limits, and the planner's tables repeat it", "statement": "A reach and frequency optimization spec can be built exactly when it and its grid have names, the level is in [0, 1], the minimum frequency is at least 0, the maximum is not below it and start is not after end. A list of such specs is answered exactly when the ids of their groups are distinct and, for each, the dates lie on the calendar, the rounded minimum is above zero, every channel has spend and a finite mean ROI at some tenth between the rounded limits and at some tenth from 1 to below the largest frequency of the data; so no minimum of 1/20 or less and no data without a frequency above 1 is answered. There is then one result per spec, in order: the limits used are the nearest tenths of the minimum and of the maximum (the largest frequency of the data if it is not given), the grid consists of exactly the tenths between them, ascending, and the frequency reported for each channel is the least of those with the largest mean ROI at the level asked for. The grid gives for each channel and frequency that ROI with its interval, and the number of people reached if all impressions kept that average frequency, rounded down. The analysis has one entry per channel with its spend and share of all paid spend, and the figures at the chosen frequencies. The planner makes one row of every constraint, channel and grid cell of whatever the processor returns, with the historical spend of the dates of the result. (That the response curves are at the reported frequencies: refuted, they search their own grid. That the intervals of the optimized figures are of the level they carry: refuted, it is always 0.9. That reach is about the selected periods: refuted. That the share is spend divided by total spend: refuted, it is a percentage. That the analysis carries the spec's tag: refuted. That the kind of outcome is the one the spec says: refuted for a KPI without revenue. That frequencies below 1 are refused: refuted. That every valid spec is answered: refuted.)", "quantifier": "all lists of specs, calendars, channel lists, reach and frequency data, ROI surfaces, metrics, curves, spend and historical spend", "why_tests_cant": "A unit test fixes a handful of tensors; the claim is about every length, every parameter value and every input, so only a proof by induction/algebra can settle it.", "anchors": ["meridian/schema/processors/reach_frequency_optimization_processor.py: ReachFrequencyOptimizationSpec, ReachFrequencyOptimizationProcessor.execute", "meridian/analysis/analyzer.py: Analyzer.optimal_freq, Analyzer.response_curves", "scenarioplanner/converters/mmm.py: RfOptimizationResult", "scenarioplanner/converters/dataframe/rf_opt_converters.py"]}
{"id": "C103", "title": "The model fit message holds one prediction per period and the metrics of every evaluation set, and the planner's tables repeat it", "statement": "A model fit spec is valid exactly when its level lies strictly between 0 and 1. Run on a trained model the processor answers exactly when it is given at least one spec and, if the model has a holdout, the first spec asks for a split; further specs change nothing. It returns one result for all data, and with a holdout also one for the training and one for the test set. Every result has one prediction per period, in order: the interval starts at the date of the period and ends where the next period begins, the actual value is the observed outcome of all geos, and if all observations of the period are in the set the expected and the baseline outcome are the mean over the draws of the outcome of all geos and the bounds of its credible interval of the level of the spec, else they are NaN. The performance holds R-squared, MAPE and wMAPE of the national outcomes of the set. The planner's diagnostics have one row per result; its table of the fit has one row per period and is about all data (if no result is called so, about the first). (That no split may be asked for if there is a holdout: refuted, it is an error. That a spec may be left out: refuted. That the actual values are those of the set: refuted, they are the same in all results. That a set with observations in every period has predictions: refuted when every period has observations of both kinds; its metrics are then still those of the sums over its own observations.)", "quantifier": "all models, holdouts, draws, dates and lists of specs", "why_tests_cant": "A unit test fixes a handful of tensors; the claim is about every length, every parameter value and every input, so only a proof by induction/algebra can settle it.", "anchors": ["meridian/schema/processors/model_fit_processor.py: ModelFitSpec, ModelFitProcessor.execute", "meridian/schema/utils/time_record.py: convert_times_to_date_intervals", "scenarioplanner/converters/dataframe/marketing_analyses_converters.py: ModelDiagnosticsConverter, ModelFitConverter", "scenarioplanner/converters/mmm.py: Mmm.model_fit_results"]}
{"id": "C104", "title": "The planner's data generator breaks every spec down into whole and calendar buckets, keeps groups unique and pairs the optimizations, and the dispatch gives every processor its own specs", "statement": "Given a fitted model, evenly spaced dates at most 252 days apart and specs, the generator of the scenario planner's data accepts the specs exactly when none is a reach and frequency optimization, the dates of each can be resolved on the dates of the data (start a date of the data; one interval before the end a date not before it), the group identifiers given are distinct, and, if the model has reach and frequency channels, no budget optimization has a maximum frequency below one. Model fit specs are handed on unchanged. Every other spec becomes, in order, the same spec for its whole period, tagged ALL, and for each way of breaking down (months, quarters, years) one spec per complete calendar bucket of its dates (up to one interval after the last): exactly the buckets that start in the first seven days of the calendar bucket and are followed by a later date, in order, each from its first date to the first date after the bucket. Optimizations are renamed after the tag, and the parts of one with a fixed budget use the historical budget. With reach and frequency channels each budget optimization is followed by one derived for reach and frequency; the two kinds come in pairs of the same period, group and level. No two budget optimizations, and no two of reach and frequency, have the same group; tags tell buckets apart. With equally spaced dates the dates of every bucket can be resolved again. The consumer then answers exactly when the model is fitted and its kernel is known and each processor accepts the specs of its kind, in order; each sets its own field, and kinds without specs leave theirs empty. (That with monthly data every bucket can be resolved: refuted, in a year of monthly data January, 31 days long, cannot. That a full year of monthly data is broken down fully: refuted, December, the fourth quarter and the year are missing. That a maximum frequency that is accepted without reach and frequency channels is accepted with them: refuted.)", "quantifier": "all dates, specs of all four kinds, identifiers and ways of breaking down", "why_tests_cant": "A unit test fixes a handful of tensors; the claim is about every length, every parameter value and every input, so only a proof by induction/algebra can settle it.", "anchors": ["scenarioplanner/mmm_ui_proto_generator.py: MmmUiProtoGenerator, create_tag, _create_subspecs", "meridian/schema/model_consumer.py: ModelConsumer", "meridian/schema/mmm_proto_generator.py: create_mmm_proto", "meridian/schema/processors/model_processor.py: DatedSpec, DatedSpecResolver, OptimizationSpec", "meridian/schema/utils/date_range_bucketing.py"]}
{"id": "C105", "title": "The xarray data loader loads exactly the complete times of a dataset, and refuses what does not fit", "statement": "A dataset that tells media times apart is loaded as it is; in one that does not, all its times become the media times, and the times of the KPI, the controls, the non-media treatments, the revenue per KPI and the spends are those at which none of these arrays misses a value in any geo or channel. A dataset can be loaded exactly when it has a KPI, media with spend or reach with frequency and spend, organic reach with frequency, a population unless there is a single geo, geos and times told apart, readable and regularly spaced dates, its times with data are the last of the media times and regularly spaced, and media (and, in a dataset with media times, all arrays) miss no value; with a KPI, everything else is a ValueError. What is loaded has all the arrays of the dataset, on one list of geos, times and media times, in order, and every cell has the value the dataset holds for its labels; a single geo gets the national name and population one. A dataset with other names loads, with the mapping from its names, as the one with the expected names; a mapping from an unknown name, to an unexpected name, or to a name that is taken is refused. (That the KPI of every week that has one is loaded: refuted, a control that starts later takes the KPI with it silently. That times without a KPI are left out: refuted for all but the first ones, where the dataset is refused.)", "quantifier": "all datasets (any geos, times, channels, values and missing values, any subset of the arrays, with or without media times), all orders of labels, all name mappings", "why_tests_cant": "A unit test fixes a handful of tensors; the claim is about every length, every parameter value and every input, so only a proof by induction/algebra can settle it.", "anchors": ["meridian/data/load.py: XrDatasetDataLoader.__init__, load", "meridian/data/input_data_builder.py: InputDataBuilder.build"]}
{"id": "C106", "title": "The chart of expected and actual outcomes shows, for each period and geo asked for, the analyzer's values", "statement": "For every model, posterior and selection, the table behind the model fit chart has exactly one row for each selected period and each line (expected, actual and, unless it is left out, baseline), and with the option by geo for each selected geo; no selection and the empty one mean everything. By geo, the columns of a row are the observed outcome of the geo in the period, or the mean and the bounds of the credible interval, over the draws, of its outcome as observed or without media. Without the option the mean column is the mean of the outcome of the selected geos together. A request is met exactly when the periods and geos named exist and are named once, geos are not both named and counted, are named or counted when shown one by one, and the count is not above the number of geos; everything else is a ValueError. Asking for the k largest geos is asking by name for k geos none of which is smaller than one left out. Changing the confidence level is the same as a new chart with that level when the outcome is the default one. (That the chart keeps showing the KPI after the level is changed: refuted, it shows revenue under the KPI's name. That the band of the national chart is the credible interval of the national outcome: refuted, it is the sum of the geos' bounds and can be arbitrarily wider. That a negative count is refused: refuted.)", "quantifier": "all models, draws, confidence levels, selections of periods and geos, counts and options", "why_tests_cant": "A unit test fixes a handful of tensors; the claim is about every length, every parameter value and every input, so only a proof by induction/algebra can settle it.", "anchors": ["meridian/analysis/visualizer.py: ModelFit.__init__, update_confidence_level, plot_model_fit, _validate_times_to_plot, _validate_geos_to_plot, _transform_data_to_dataframe", "meridian/data/input_data.py: get_n_top_largest_geos"]}
{"id": "C107", "title": "The planner's spreadsheet holds exactly the tables given, and the report's URL leads each source to its table", "statement": "Uploading a non-empty set of tables, none named like the tab of a new spreadsheet, makes a spreadsheet with exactly these tables, in order, each under its name, the names of its columns first and then its rows, with infinite and missing numbers left blank; the ids returned are those of the tabs. The URL of the report, when read as a URL is read, has exactly these parameters, each once: the template, the spreadsheet, for each table a source shows and that is there the id of its tab, and, if there are specs of a budget optimization, the connector with the address of the spreadsheet, which is read back unchanged whatever characters it has. There is a warning for each table the report looks for that is not there, and no other. So after an upload every source of the report shows the tab that holds its table. (That every set of tables is uploaded, or else nothing is made: refuted, an empty set or a table named like the first tab fails and leaves an empty spreadsheet behind. That every optimization uploaded is shown: refuted, with specs of a reach and frequency optimization only, the URL is that of a spreadsheet without them.)", "quantifier": "all sets of tables, cells, tab names and ids, all addresses (any bytes), all ids the service may choose", "why_tests_cant": "A unit test fixes a handful of tensors; the claim is about every length, every parameter value and every input, so only a proof by induction/algebra can settle it.", "anchors": ["scenarioplanner/converters/sheets.py: upload_to_gsheet", "scenarioplanner/linkingapi/url_generator.py: create_report_url"]}
{"id": "C108", "title": "The charts of response curves show the channels that spend most, with exactly their curves, plans and limits", "statement": "The layered chart of response curves asks for 7 channels, or the number given, at least 1 and at most 10 or all; it shows those that spend most at present, and its table has exactly the points of their curves, ordered by name, spend and multiplier, marking present spend. The separate charts show every channel that has a curve. The chart after an optimization shows, with a number, the channels of largest optimized spend in that order, without one all channels, and with more than there are it fails; its table has exactly the curves and the points of the two plans of these channels, each with the limits of its own channel; a point of a curve above zero is on the solid line if it is within the limits, and on the dashed line if it is above the upper or not above the lower limit; the plans are drawn as points. The axis of the waterfall chart is padded by a power of ten of the size of the losses, and if the outcome does not fall every bar is within it. (That at most 7 channels are layered: refuted, 10. That the number in the title is the number of channels shown: refuted, channels without spend are counted. That the table is ordered by spend: refuted. That a negative number is an error: refuted. That all of a curve is drawn: refuted, its point at zero is not. That the bars are always within the axis: refuted, when the outcome falls the first bar is cut off.)", "quantifier": "all sets of channels, curves, multipliers, limits and plans, all numbers of channels asked for, all reports", "why_tests_cant": "A unit test fixes a handful of tensors; the claim is about every length, every parameter value and every input, so only a proof by induction/algebra can settle it.", "anchors": ["meridian/analysis/visualizer.py: MediaEffects.plot_response_curves, _transform_response_curve_metrics", "meridian/analysis/optimizer.py: OptimizationResults.plot_response_curves, _get_plottable_response_curves_df, _get_top_channels_by_spend, plot_incremental_outcome_delta"]}
{"id": "C109", "title": "The summary of results is of exactly the period asked for, and its sentences name the channels that are best", "statement": "A summary of a model's results runs from the first date asked for, or the first there is, to one interval after the last; its results are of exactly the periods between the two dates, both included; its contributions are by quarter if these are 52 or more; dates that are not of the data, or in the wrong order, are refused. The two channels it says drove the outcome are those of most incremental outcome; those it says have the highest ROI, effectiveness and marginal ROI and the lowest cost per incremental KPI have them, missing values counting last, and the numbers are theirs; the optimal frequency it names is that of the reach and frequency channel on which most is spent. (That results of less than a year are not by quarter: refuted, two months of daily data are. That the sentences tell channels apart: refuted, the names are written with other capitals. That the channel of the lowest cost gains for its spend: refuted, one that loses has a cost below zero and is named.)", "quantifier": "all sets of dates and dates asked for, all channels and metrics, missing or not", "why_tests_cant": "A unit test fixes a handful of tensors; the claim is about every length, every parameter value and every input, so only a proof by induction/algebra can settle it.", "anchors": ["meridian/analysis/summarizer.py: Summarizer.output_model_results_summary, _gen_model_results_summary, _get_sorted_posterior_mean_metrics_df, _create_performance_breakdown_card_html, _select_optimal_rf_data"]}
{"id": "C110", "title": "The health card of a review has one row for each check that was run, saying its name, status and recommendation", "statement": "The health card of a review has exactly one row for each check that was run; the row says the check's readable name, its status and its recommendation, and for prior-posterior shift and ROI consistency whether it passed and how many of how many channels passed; these two come last, and otherwise checks stay in the order in which they were run; a result without a readable name is an error, never a missing row. The statuses by name have each class of results once, with the status of its last result. (That every check of channels says how many passed: refuted, implausible ROI, high variance and potential bias do not. That a failure is shown as one: refuted, the rows that count channels show anything but a pass as a review.)", "quantifier": "all lists of check results of any classes, statuses and channels", "why_tests_cant": "A unit test fixes a handful of tensors; the claim is about every length, every parameter value and every input, so only a proof by induction/algebra can settle it.", "anchors": ["meridian/analysis/review/results.py: ReviewSummary.output_model_health_card, checks_status, _create_health_card_html, _get_check_data, _get_check_name", "meridian/templates/model_health_summary_card.html.jinja", "meridian/analysis/review/constants.py: CHECK_RESULT_NAME_MAP"]}
{"id": "C111", "title": "The export to the scenario planner has every table exactly once under its name, or is refused", "statement": "Whatever the optimizations and their grids are called, the export to the scenario planner has every table exactly once: those of the model's fit, diagnostics, outcome, spend and ROI, specs, results and response curves under their fixed names, and one for each grid under the prefix of its kind and the grid's name with each run of blanks replaced by one underscore; a grid never takes the name of another table. If two grids of one kind get the same name the export is refused. (That optimizations with different names can be exported: refuted, 'plan b' and 'plan_b' cannot be together.)", "quantifier": "all models with any number of optimizations, any grid names and any contents of tables", "why_tests_cant": "A unit test fixes a handful of tensors; the claim is about every length, every parameter value and every input, so only a proof by induction/algebra can settle it.", "anchors": ["scenarioplanner/converters/dataframe/dataframe_model_converter.py: DataFrameModelConverter.__call__", "scenarioplanner/converters/dataframe/common.py: create_grid_sheet_name"]}
