{
 "claims": [
  {
   "property": "C01",
   "status": "proved",
   "theorems": [
    "C01_adstock_is_lagged_sum",
    "C01_adstock_rejects_iff",
    "C01_old_media_is_irrelevant",
    "C01_alpha_zero_is_identity"
   ],
   "note": "Refinement of _adstock to the lagged weighted average for every shape, lag and decay assignment; rejects-iff; recency; alpha=0."
  },
  {
   "property": "C02",
   "status": "proved",
   "theorems": [
    "C02_weights_are_probability_vector",
    "C02_adstock_is_contraction",
    "C02_constant_media_is_fixed"
   ],
   "note": "Weights of compute_decay_weights and bounds/steady state of _adstock."
  },
  {
   "property": "C03",
   "status": "proved",
   "theorems": [
    "C03_adstock_is_linear",
    "C03_adstock_is_monotone"
   ],
   "note": ""
  },
  {
   "property": "C04",
   "status": "proved",
   "theorems": [
    "C04_hill_shape",
    "C04_hill_forward_entrywise"
   ],
   "note": "slope, ec > 0."
  },
  {
   "property": "C05",
   "status": "proved",
   "theorems": [
    "C05_backends_agree",
    "C05_kernels_agree"
   ],
   "note": "Whole _adstock with either kernel, also the error branches."
  },
  {
   "property": "C06",
   "status": "proved",
   "theorems": [
    "C06_media_transformation",
    "C06_rf_transformation",
    "C06_channel_choice_is_local",
    "C06_rf_channel_choice_is_local",
    "C06_unsaturated_channel_is_linear",
    "C06_rf_is_linear_in_reach",
    "C06_media_transformation_is_monotone",
    "C06_default_output_length",
    "C06_alpha_exponent_bijection"
   ],
   "note": "adstock_hill_media and adstock_hill_rf, both orders of Hill and adstock."
  },
  {
   "property": "C07",
   "status": "proved",
   "theorems": [
    "C07_media_transformer_built_iff",
    "C07_media_round_trip",
    "C07_media_scale_is_documented_median",
    "C07_scaled_media_has_median_one",
    "C07_median_unique",
    "C07_kpi_round_trip",
    "C07_kpi_is_standardised",
    "C07_controls_round_trip",
    "C07_controls_are_standardised",
    "C07_controls_scale_flagged_channels_only"
   ],
   "note": "Round trips for arbitrary data; median scaling; standardisation of the training KPI/controls (population std)."
  },
  {
   "property": "C08",
   "status": "proved",
   "theorems": [
    "C08_kpi_round_trip_iff",
    "C08_kpi_stdev_zero_iff_constant",
    "C08_controls_round_trip_iff",
    "C08_round_trip_refuted"
   ],
   "note": "Exact characterisation of when the round trip fails (iff), plus a concrete refutation."
  },
  {
   "property": "C09",
   "status": "proved",
   "theorems": [
    "C09_paid_media_prior_honoured",
    "C09_paid_media_coefficient_exists",
    "C09_paid_rf_prior_honoured",
    "C09_organic_media_prior_honoured",
    "C09_organic_rf_prior_honoured",
    "C09_non_media_prior_honoured"
   ],
   "note": "For all models, media, spend, draws and deviations, normal and log-normal: paid media, paid RF, organic media, organic RF, non-media (channels not population scaled; the other case is C11). Incremental outcome is the difference of expected outcomes of the two media plans. Existence of the coefficient proved for paid media."
  },
  {
   "property": "C10",
   "status": "proved",
   "theorems": [
    "C10_hill_channels_honour_counterfactual_priors",
    "C10_linear_channel_mroi_prior_refuted"
   ],
   "note": "Refuted for saturation 'none' with an mROI prior (national model witness); proved for every Hill channel."
  },
  {
   "property": "C11",
   "status": "proved",
   "theorems": [
    "C11_reported_baselines_agree",
    "C11_baseline_is_requested_value",
    "C11_baseline_values_accepted_iff",
    "C11_prior_baseline_is_reported_baseline",
    "C11_population_scaled_baseline_iff",
    "C11_population_scaled_baseline_refuted"
   ],
   "note": "Proved for channels that are not population scaled; iff and refutation for scaled ones."
  },
  {
   "property": "C12",
   "status": "proved",
   "theorems": [
    "C12_posterior_draws_selected_parameter",
    "C12_prior_draws_selected_parameter",
    "C12_organic_rf_agreement",
    "C12_organic_rf_prior_refuted"
   ],
   "note": "Proved for posterior sampling (all types) and prior sampling except organic RF; iff and refutation for organic RF."
  },
  {
   "property": "C13",
   "status": "proved",
   "theorems": [
    "C13_explicit_media_prior_rejected",
    "C13_matching_rf_prior_rejected",
    "C13_rejection_characterised",
    "C13_default_prior_type_refuted",
    "C13_rf_prior_type_refuted",
    "C13_only_active_priors_refuted"
   ],
   "note": "Characterised exactly; proved for explicit matching prior types; refuted for default type, differing RF type, and unused priors."
  },
  {
   "property": "C14",
   "status": "proved",
   "theorems": [
    "C14_mean_and_std",
    "C14_range_has_mass",
    "C14_range_accepts_iff",
    "C14_range_errors",
    "C14_total_media_contribution"
   ],
   "note": "Log-normal moments given by the textbook closed form; quantiles for any strictly increasing distribution function with inverse."
  },
  {
   "property": "C15",
   "status": "proved",
   "theorems": [
    "C15_holdout_likelihood",
    "C15_full_likelihood",
    "C15_heldout_scaled_values_irrelevant",
    "C15_raw_heldout_kpi_refuted"
   ],
   "note": "Proved on the scaled KPI; raw-KPI independence refuted (standardisation uses held-out cells)."
  },
  {
   "property": "C16",
   "status": "proved",
   "theorems": [
    "C16_tau_g",
    "C16_baseline_geo"
   ],
   "note": ""
  },
  {
   "property": "C17",
   "status": "proved",
   "theorems": [
    "C17_reconstruction",
    "C17_batch_size_irrelevant",
    "C17_batch_size_rejected",
    "C17_saved_parameters"
   ],
   "note": "TFP's draw-wise evaluation of deterministic nodes is an assumption of the model."
  },
  {
   "property": "C18",
   "status": "proved",
   "theorems": [
    "C18_partition_of_unity",
    "C18_accepts"
   ],
   "note": "l1_distance_weights for every increasing knot list; rejects-iff."
  },
  {
   "property": "C19",
   "status": "proved",
   "theorems": [
    "C19_knot_configuration",
    "C19_equally_spaced",
    "C19_rejects",
    "C19_default_is_one_value_per_period",
    "C19_single_knot_is_constant",
    "C19_duplicate_knots_miscounted",
    "C19_duplicate_knots_refuted",
    "C19_valid_list_accepted_refuted"
   ],
   "note": "Integer, list and default configurations; duplicate knots refuted ([0;3;3] miscounted, [3;3] rejected)."
  },
  {
   "property": "C20",
   "status": "proved",
   "theorems": [
    "C20_coordinates",
    "C20_strict_coordinates_refuted",
    "C20_expansion",
    "C20_no_bounds",
    "C20_selected_dates"
   ],
   "note": "Exact for all accepted coordinates, including repeated dates; strictness of accepted coordinates refuted."
  },
  {
   "property": "C21",
   "status": "proved",
   "theorems": [
    "C21_spend_bounds",
    "C21_bad_constraints_rejected",
    "C21_half_step_of_exact_bound_refuted"
   ],
   "note": "Exact rationals; double rounding finding."
  },
  {
   "property": "C22",
   "status": "proved",
   "theorems": [
    "C22_grid_covers_bounds",
    "C22_grid_for_constraints"
   ],
   "note": "Includes the bounds computed from constraints; the outcome per spend value is a parameter."
  },
  {
   "property": "C23",
   "status": "proved",
   "theorems": [
    "C23_within_bounds_and_budget"
   ],
   "note": "Any well-formed grid, any outcomes."
  },
  {
   "property": "C24",
   "status": "proved",
   "theorems": [
    "C24_concave_optimal",
    "C24_rounding_refuted",
    "C24_smaller_total_refuted"
   ],
   "note": "Tolerance from rounding to 8 decimals is sharp in kind: exact optimality refuted."
  },
  {
   "property": "C25",
   "status": "proved",
   "theorems": [
    "C25_target_mroi",
    "C25_target_roi",
    "C25_target_roi_kept",
    "C25_exact_target_mroi_refuted",
    "C25_total_roi_refuted"
   ],
   "note": "Two refutations of the exact claims."
  },
  {
   "property": "C26",
   "status": "proved",
   "theorems": [
    "C26_search_terminates",
    "C26_search_total"
   ],
   "note": "No hypothesis on the grid or the state."
  },
  {
   "property": "C27",
   "status": "proved",
   "theorems": [
    "C27_trim_keeps_points_in_bounds"
   ],
   "note": "Covers both error branches."
  },
  {
   "property": "C28",
   "status": "proved",
   "theorems": [
    "C28_rounding_error",
    "C28_bad_arguments_rejected",
    "C28_tolerance_refuted"
   ],
   "note": "Documented tolerance refuted; sharp bound proved."
  },
  {
   "property": "C29",
   "status": "proved",
   "theorems": [
    "C29_population_split",
    "C29_population_split_rejects",
    "C29_scaled_media_costs_the_budget",
    "C29_scaled_rf_costs_the_budget",
    "C29_zero_history_refuted"
   ],
   "note": "Population split and flighting pattern; one refutation (no historical spend)."
  },
  {
   "property": "C30",
   "status": "proved",
   "theorems": [
    "C30_outcome_decomposition"
   ],
   "note": "For every well-formed model and valid request; new_data=None; draws are exact reals."
  },
  {
   "property": "C31",
   "status": "proved",
   "theorems": [
    "C31_total_is_scenario_difference",
    "C31_reported_total"
   ],
   "note": "Both the evaluated and the skipped second scenario; new_data=None, include_non_paid_channels=True."
  },
  {
   "property": "C32",
   "status": "proved",
   "theorems": [
    "C32_incremental_batch_size",
    "C32_expected_batch_size",
    "C32_each_draw_alone",
    "C32_each_expected_draw_alone",
    "C32_positive_batch_size"
   ],
   "note": "expected_outcome and incremental_outcome; one chain (every chain is sliced alike)."
  },
  {
   "property": "C33",
   "status": "proved",
   "theorems": [
    "C33_selected_geos",
    "C33_selected_times",
    "C33_aggregated_is_sum",
    "C33_cells",
    "C33_cells_without_channels",
    "C33_disjoint_geos_add",
    "C33_channel_dims",
    "C33_ambiguous_shape_refuted",
    "C33_empty_times_selects_nothing"
   ],
   "note": "Ambiguous leading dimension refuted by a concrete tensor; an empty time selection is accepted and selects nothing."
  },
  {
   "property": "C34",
   "status": "proved",
   "theorems": [
    "C34_labels",
    "C34_contribution_labels",
    "C34_other_orders_mislabelled",
    "C34_every_order_refuted"
   ],
   "note": "the values of the labelled cells are those of summary_table (C60). A selection of geos in another order than the data is mislabelled (C34_other_orders_mislabelled) and the unrestricted claim is refuted by witness."
  },
  {
   "property": "C35",
   "status": "proved",
   "theorems": [
    "C35_curves",
    "C35_optimal_frequency",
    "C35_zero",
    "C35_monotone",
    "C35_negative_refused",
    "C35_spend_within_selection_refuted"
   ],
   "note": "C35_curves and C35_optimal_frequency characterise every cell against outcome_change/channel_spend (specification vocabulary); C35_zero and C35_negative_refused hold for all inputs; C35_monotone from the per-draw monotonicity. Spend axis for spend per channel with a selection: refuted by witness. New revenue_per_kpi together with use_optimal_frequency is outside C35_optimal_frequency."
  },
  {
   "property": "C36",
   "status": "proved",
   "theorems": [
    "C36_roi",
    "C36_marginal_roi",
    "C36_cpik",
    "C36_reciprocal",
    "C36_nonnegative",
    "C36_geo_weighted",
    "C36_selection_of_flat_spend_refused_refuted",
    "C36_flat_history_refused"
   ],
   "note": "exact reals; NaN and infinity are one undefined value; media and frequency non-negative, scale factors positive. One documented refusal is refuted by witness."
  },
  {
   "property": "C37",
   "status": "proved",
   "theorems": [
    "C37_optimal_frequency",
    "C37_default_grid",
    "C37_confidence_level_refuted",
    "C37_flat_spend_rejected"
   ],
   "note": "C37_optimal_frequency and C37_default_grid: argmax by the means of the ROI of the specification, not of the model. C37_confidence_level_refuted shows the optimized metrics do not depend on the confidence level. Hypothesis: non-zero spend of every RF channel in the selection (otherwise the ROI is NaN), revenue_per_kpi historical."
  },
  {
   "property": "C38",
   "status": "proved",
   "theorems": [
    "C38_aligned",
    "C38_complete",
    "C38_axes",
    "C38_accepted",
    "C38_order_independent",
    "C38_rejected_call_kept_refuted",
    "C38_order_matters_for_ties_refuted"
   ],
   "note": "All thirteen setters and build; the final InputData validation is an arbitrary function. C38_rejected_call_kept_refuted: an array with an unknown geo is rejected but kept and used by build. C38_order_matters_for_ties_refuted: geos tied in the natural order (g1, g01) come in the order of the last call."
  },
  {
   "property": "C39",
   "status": "proved",
   "theorems": [
    "C39_in_order",
    "C39_accepted",
    "C39_keyword_order",
    "C39_bound_channels",
    "C39_unknown_names_refuted"
   ],
   "note": "arg_builder.py modelled in full, with the five builders of InputData. C39_unknown_names_refuted: with a default unknown names are ignored."
  },
  {
   "property": "C40",
   "status": "proved",
   "theorems": [
    "C40_accepted",
    "C40_filled",
    "C40_periods",
    "C40_shapes",
    "C40_optimal_frequency",
    "C40_dummy_media",
    "C40_analyzer_fill",
    "C40_time_length_refuted",
    "C40_spend_length_refuted",
    "C40_ignored_tensor_matters_refuted",
    "C40_error_kind_refuted"
   ],
   "note": "C40_analyzer_fill ties the filling used by the analyzer models to this one. Refuted: C40_time_length_refuted (a time of any length is accepted when nothing else changes), C40_spend_length_refuted (likewise a spend by geo and period when the model's is by channel), C40_ignored_tensor_matters_refuted, C40_error_kind_refuted (IndexError)."
  },
  {
   "property": "C41",
   "status": "proved",
   "theorems": [
    "C41_accepted",
    "C41_rejected",
    "C41_combined",
    "C41_order_independent",
    "C41_nested",
    "C41_grid",
    "C41_date_outside",
    "C41_multipliers",
    "C41_single_unchecked_refuted",
    "C41_within_multipliers_refuted",
    "C41_budget_range_refuted",
    "C41_default_constraint_refuted"
   ],
   "note": "Refuted: C41_single_unchecked_refuted, C41_within_multipliers_refuted (spends outside the multipliers, clamped silently), C41_budget_range_refuted (declared maximal decrease gives None because of rounding), C41_default_constraint_refuted (variation above 1 accepted by create, fails on use)."
  },
  {
   "property": "C42",
   "status": "proved",
   "theorems": [
    "C42_reproducible_jax",
    "C42_reproducible_tf",
    "C42_isolated_jax",
    "C42_isolated_tf",
    "C42_always_keyed",
    "C42_kernel_seed_does_not_advance",
    "C42_successive_jax",
    "C42_successive_tf",
    "C42_accepted",
    "C42_integer_is_pair_tf",
    "C42_unseeded_tf",
    "C42_batches_prefix",
    "C42_advance_independent_refuted"
   ],
   "note": "The generators are universally quantified functions. Seeds: None, integers and sequences; scalar arrays and ready-made keys are not modelled. C42_advance_independent_refuted: the JAX handler returned by advance_handler is the handler of the kernel seed just handed out."
  },
  {
   "property": "C43",
   "status": "proved",
   "theorems": [
    "C43_round_trip",
    "C43_injective",
    "C43_unsupported",
    "C43_string_block",
    "C43_always_refuted"
   ],
   "note": "Elements are byte strings. The dtype argument (a conversion before encoding) is not modelled; the TensorFlow backend calls TensorFlow's own functions."
  },
  {
   "property": "C44",
   "status": "proved",
   "theorems": [
    "C44_accepts",
    "C44_monthly",
    "C44_quarterly",
    "C44_yearly",
    "C44_same_month_refuted",
    "C44_all_buckets_refuted"
   ],
   "note": "Exact characterisation under a bound on the gap between neighbouring dates; two refutations."
  },
  {
   "property": "C45",
   "status": "proved",
   "theorems": [
    "C45_zero_history_is_neutral",
    "C45_short_history_refuted"
   ],
   "note": "Positive theorem when max_lag+1 <= n_media_times; otherwise refuted with a witness (the normalising window is cut to the supplied history)."
  },
  {
   "property": "C46",
   "status": "proved",
   "theorems": [
    "C46_allocated_spend_sums_to_total",
    "C46_given_spend_kept",
    "C46_allocation_proportional"
   ],
   "note": "Channels with non-zero units in the model window (0/0 otherwise)."
  },
  {
   "property": "C47",
   "status": "proved",
   "theorems": [
    "C47_spec_accepted_iff_well_formed",
    "C47_rejections_are_value_errors"
   ],
   "note": ""
  },
  {
   "property": "C48",
   "status": "proved",
   "theorems": [
    "C48_kept_draws",
    "C48_posterior_shape",
    "C48_trace_aligned"
   ],
   "note": ""
  },
  {
   "property": "C49",
   "status": "proved",
   "theorems": [
    "C49_selected_knots",
    "C49_minimal_aic",
    "C49_rejects",
    "C49_usable"
   ],
   "note": "The regression is an abstract solver here (its correctness is C50); AIC uses the residual sum of squares it returns."
  },
  {
   "property": "C50",
   "status": "proved",
   "theorems": [
    "C50_band_solver",
    "C50_band_solver_nonzero_pivots",
    "C50_penalty_is_differences",
    "C50_weighted_ridge_minimises",
    "C50_rotation_total",
    "C50_constant_kpi_fails",
    "C50_regression_total_refuted"
   ],
   "note": "Exact arithmetic; the LDL kernel, penalty, rotation and Newton loop. Constant KPI refuted."
  },
  {
   "property": "C51",
   "status": "proved",
   "theorems": [
    "C51_ordinal_counts_days",
    "C51_contiguous_periods",
    "C51_accepts",
    "C51_last_period",
    "C51_equal_spacing_refuted"
   ],
   "note": "Calendar arithmetic itself is proved (ordinal counts days)."
  },
  {
   "property": "C52",
   "status": "proved",
   "theorems": [
    "C52_optimized_spend",
    "C52_budget_overrun_bounded",
    "C52_within_requested_budget_refuted",
    "C52_zero_budget_refuted"
   ],
   "note": "Two refutations: overrun through rounding, zero budget."
  },
  {
   "property": "C53",
   "status": "proved",
   "theorems": [
    "C53_jax_keeps_proportional",
    "C53_tf_keeps_proportional",
    "C53_backends_agree_iff",
    "C53_tf_negative_refuted"
   ],
   "note": "Columns as built by _create_grids; rationals for floats."
  },
  {
   "property": "C54",
   "status": "proved",
   "theorems": [
    "C54_accepts_iff",
    "C54_media_data",
    "C54_rf_data",
    "C54_revenue_and_absent",
    "C54_zero_frequency_refuted"
   ],
   "note": "Full characterisation of accepted arguments; zero unit costs (inf) excluded by hypothesis."
  },
  {
   "property": "C55",
   "status": "proved",
   "theorems": [
    "C55_grid_and_report_agree",
    "C55_impressions_scale_with_spend"
   ],
   "note": "Stated on the modelled adstock_hill_rf."
  },
  {
   "property": "C56",
   "status": "proved",
   "theorems": [
    "C56_non_media_ignores_media_scaling",
    "C56_non_media_sign"
   ],
   "note": "Independence and sign."
  },
  {
   "property": "C57",
   "status": "proved",
   "theorems": [
    "C57_channel_is_scenario_difference"
   ],
   "note": "All five kinds of channels; new_data=None, include_non_paid_channels=True."
  },
  {
   "property": "C58",
   "status": "proved",
   "theorems": [
    "C58_paid_channels",
    "C58_expected_outcome",
    "C58_incremental_outcome",
    "C58_scaling_factors_checked",
    "C58_units_checked",
    "C58_expected_units_checked"
   ],
   "note": "new_data of the historical shape without revenue_per_kpi; media and frequency non-negative, scale factors positive (C07). C58_paid_channels adds new data with revenue_per_kpi for the paid channels."
  },
  {
   "property": "C59",
   "status": "proved",
   "theorems": [
    "C59_summaries",
    "C59_accepted",
    "C59_median_inside",
    "C59_within_draws",
    "C59_wider_with_level",
    "C59_level_one",
    "C59_order_of_draws",
    "C59_monotone",
    "C59_change_of_units",
    "C59_mean_inside_refuted",
    "C59_level_checked_refuted"
   ],
   "note": "exact reals; non-finite draws are outside the statement. Two natural expectations are refuted by witness."
  },
  {
   "property": "C60",
   "status": "proved",
   "theorems": [
    "C60_table",
    "C60_spend_shares",
    "C60_hundred_percent",
    "C60_metrics_follow_optimal_frequency_refuted"
   ],
   "note": "exact reals; NaN and infinity are one undefined value; new data without revenue_per_kpi; media and frequency non-negative, scale factors positive. One documented effect is refuted."
  },
  {
   "property": "C61",
   "status": "proved",
   "theorems": [
    "C61_metrics",
    "C61_bounds",
    "C61_perfect_fit",
    "C61_geo_partition",
    "C61_national_partition_refuted",
    "C61_boolean_times_refuted"
   ],
   "note": "Refuted: C61_national_partition_refuted (a period held out in some geos only is in both the national train and test sets), C61_boolean_times_refuted (boolean selected_times with a holdout raises ValueError). MAPE skips observations with actual = expected = 0 (stated in the specification)."
  },
  {
   "property": "C62",
   "status": "proved",
   "theorems": [
    "C62_negative_baseline"
   ],
   "note": ""
  },
  {
   "property": "C63",
   "status": "proved",
   "theorems": [
    "C63_spend",
    "C63_nothing_asked",
    "C63_total",
    "C63_periods_add_up",
    "C63_geos_add_up",
    "C63_total_reported_refuted"
   ],
   "note": "Refuted: C63_total_reported_refuted (per-channel spend of a channel without impressions is reported as NaN). New data has the periods of the model."
  },
  {
   "property": "C64",
   "status": "proved",
   "theorems": [
    "C64_masking",
    "C64_summary",
    "C64_rank_error",
    "C64_convergence",
    "C64_all_nan",
    "C64_nan_first_refuted"
   ],
   "note": "R-hat values themselves (az.rhat) are inputs. Refuted: C64_nan_first_refuted. The share above the threshold counts NaN values in the denominator (stated in row_ok)."
  },
  {
   "property": "C65",
   "status": "proved",
   "theorems": [
    "C65_not_converged",
    "C65_run",
    "C65_default",
    "C65_default_no_roi",
    "C65_mixed_priors_refuted",
    "C65_custom_battery_refuted"
   ],
   "note": "Refuted: C65_mixed_priors_refuted (ROI prior for one kind of paid channels and another type for the other: KeyError), C65_custom_battery_refuted (battery without the three model checks: ValueError). The fitted model enters through M_Analyzer/M_Accuracy; prior quantiles, prior statistics and bootstrap columns are inputs."
  },
  {
   "property": "C66",
   "status": "proved",
   "theorems": [
    "C66_score",
    "C66_range",
    "C66_monotone",
    "C66_required",
    "C66_boundary_refuted",
    "C66_nan_refuted"
   ],
   "note": "Refuted: C66_boundary_refuted (p-value equal to the threshold passes and scores 0), C66_nan_refuted."
  },
  {
   "property": "C67",
   "status": "proved",
   "theorems": [
    "C67_baseline",
    "C67_ppp",
    "C67_goodness_of_fit"
   ],
   "note": ""
  },
  {
   "property": "C68",
   "status": "proved",
   "theorems": [
    "C68_tolerance",
    "C68_roi",
    "C68_shift",
    "C68_constant_refuted"
   ],
   "note": "Refuted: C68_constant_refuted. Prior quantiles and bootstrap column choices are inputs; the bootstrap lists are not empty."
  },
  {
   "property": "C69",
   "status": "proved",
   "theorems": [
    "C69_implausible",
    "C69_high_variance",
    "C69_zero_median_refuted",
    "C69_bias",
    "C69_no_controls",
    "C69_constant_refuted"
   ],
   "note": "Refuted: C69_zero_median_refuted, C69_constant_refuted. The highest density interval (az.hdi) is an input."
  },
  {
   "property": "C70",
   "status": "proved",
   "theorems": [
    "C70_reload",
    "C70_round_trip",
    "C70_stable",
    "C70_names",
    "C70_single_knot_refuted",
    "C70_zero_knot_refuted",
    "C70_precision_refuted",
    "C70_silent_refuted"
   ],
   "note": "Refuted: C70_single_knot_refuted, C70_zero_knot_refuted, C70_precision_refuted, C70_silent_refuted. The prior distributions of the specification are C71."
  },
  {
   "property": "C71",
   "status": "proved",
   "theorems": [
    "C71_round_trip",
    "C71_checked",
    "C71_unregistered",
    "C71_changed",
    "C71_force",
    "C71_bool_refuted",
    "C71_precision_refuted",
    "C71_closure_refuted",
    "C71_dict_refuted"
   ],
   "note": "Refuted: C71_bool_refuted, C71_precision_refuted, C71_closure_refuted, C71_dict_refuted. Constructor checks of the distributions, the array messages (C43) and the legacy enumerated messages are not part of the model."
  },
  {
   "property": "C72",
   "status": "proved",
   "theorems": [
    "C72_accepts",
    "C72_kept",
    "C72_refused",
    "C72_copy",
    "C72_dates_refuted",
    "C72_media_dates_refuted",
    "C72_spend_refuted",
    "C72_spend_geos_refuted",
    "C72_repeated_date_refuted",
    "C72_controls_refuted"
   ],
   "note": "Refuted: C72_dates_refuted, C72_media_dates_refuted, C72_spend_refuted, C72_spend_geos_refuted, C72_repeated_date_refuted, C72_controls_refuted. Dimension and array names are those the constructor requires; labels are strings and dates."
  },
  {
   "property": "C73",
   "status": "proved",
   "theorems": [
    "C73_round_trip",
    "C73_exact",
    "C73_again",
    "C73_nothing_filled_in",
    "C73_fraction_refuted",
    "C73_periods_refuted",
    "C73_controls_refuted"
   ],
   "note": "Refuted: C73_fraction_refuted, C73_periods_refuted, C73_controls_refuted. Distinct labels for .sel; doubles hold numbers exactly; labels are dates."
  },
  {
   "property": "C74",
   "status": "proved",
   "theorems": [
    "C74_round_trip",
    "C74_samples",
    "C74_samples_checked",
    "C74_versions",
    "C74_changed_function",
    "C74_single_knot_refuted",
    "C74_empty_key_refuted",
    "C74_review_refuted"
   ],
   "note": "Refuted: C74_single_knot_refuted, C74_empty_key_refuted, C74_review_refuted. The automatic knot selection, legacy priors and the constructor checks beyond those of C70-C73 are parameters."
  },
  {
   "property": "C75",
   "status": "proved",
   "theorems": [
    "C75_latest",
    "C75_isolated",
    "C75_crash",
    "C75_only_saved",
    "C75_saves",
    "C75_failed_save_refuted",
    "C75_interrupted_refuted",
    "C75_bare_name_refuted"
   ],
   "note": "Refuted: C75_failed_save_refuted, C75_interrupted_refuted, C75_bare_name_refuted. The two payload codecs and the text format are parameters, correct for the message that is saved; the outer wire format is modelled. Symbolic links, permissions and full disks are not."
  },
  {
   "property": "C76",
   "status": "proved",
   "theorems": [
    "C76_arguments",
    "C76_fresh",
    "C76_answered",
    "C76_mismatch",
    "C76_used",
    "C76_reuse",
    "C76_other_data_refuted",
    "C76_other_tolerance_refuted",
    "C76_geos_refuted",
    "C76_no_geos_refuted",
    "C76_zero_target_refuted"
   ],
   "note": "Refuted: C76_other_data_refuted, C76_other_tolerance_refuted, C76_geos_refuted, C76_no_geos_refuted, C76_zero_target_refuted. Spend, optimal frequency and incremental outcome of a model are parameters (they are the subject of C63, C37, C53, C55, C58). The summary data sets of the result are not part of it."
  },
  {
   "property": "C77",
   "status": "proved",
   "theorems": [
    "C77_graphs",
    "C77_log_density",
    "C77_saved_parameters",
    "C77_saved_draws_usable",
    "C77_defined"
   ],
   "note": "Proved: the graphs with and without deterministic nodes agree; log density of the sampling graph = priors + standard normals + likelihood around the documented predictor of the saved draw; saved parameters; saved draws meet the hypotheses of C30-C33 and C56-C58; definedness for coefficient priors. Not modelled: the no-U-turn sampler itself, bijectors of the unconstrained space and the densities of the prior distributions (an arbitrary function of name and values)."
  },
  {
   "property": "C78",
   "status": "proved",
   "theorems": [
    "C78_same_nodes",
    "C78_seeds",
    "C78_prior_draws",
    "C78_saved_names",
    "C78_defined",
    "C78_organic_rf_type",
    "C78_organic_rf_refuted"
   ],
   "note": "Relational proof between the two samplers; freshness of names gives that each parameter is drawn once. Finding (refuted): prior sampling reads the prior type of organic media for organic reach and frequency, so with different types the parameters drawn are not those of the posterior."
  },
  {
   "property": "C79",
   "status": "proved",
   "theorems": [
    "C79_cells",
    "C79_complete",
    "C79_channels",
    "C79_balanced",
    "C79_population",
    "C79_row_order",
    "C79_documented",
    "C79_empty_column_dropped_refuted",
    "C79_revenue_lag_refuted",
    "C79_media_ignored_refuted",
    "C79_geos_mixed_refuted"
   ],
   "note": "All with_* calls, CoordToColumns and DataFrameDataLoader over arbitrary label types; pandas operations (stack, dropna, groupby, to_xarray) are modelled on lists of rows. CSV reading and missing labels are not modelled. Findings (refuted): an all-missing control column is silently dropped; revenue KPI with a revenue_per_kpi column and longer media is refused although documented; media columns without spend are ignored when RF data are there; a KPI known in one geo only and media known in another one only load as a national model."
  },
  {
   "property": "C80",
   "status": "proved",
   "theorems": [
    "C80_exact",
    "C80_time_varies",
    "C80_geo_varies",
    "C80_non_revenue",
    "C80_frequency_refuted",
    "C80_small_variation_refuted",
    "C80_zero_population_refuted"
   ],
   "note": "The support check of the priors (M_Spec) and the number of knots (M_Knots) enter as results. Exact real arithmetic; NaN is an explicit value. Three plausible stronger claims are refuted by witnesses."
  },
  {
   "property": "C81",
   "status": "proved",
   "theorems": [
    "C81_sampling",
    "C81_line",
    "C81_combination",
    "C81_threshold_one",
    "C81_units",
    "C81_findings",
    "C81_attention",
    "C81_failure",
    "C81_lines_per_geo_refuted",
    "C81_little_variation_refuted"
   ],
   "note": "Exact real arithmetic; the regression behind the variance inflation factor is an orthogonal projection. The scaled variables enter as given arrays. Two plausible stronger claims are refuted by witnesses."
  },
  {
   "property": "C82",
   "status": "proved",
   "theorems": [
    "C82_accepted",
    "C82_fits",
    "C82_law",
    "C82_again",
    "C82_fixed",
    "C82_slope_warning",
    "C82_defaults",
    "C82_checked_refuted",
    "C82_nan_refuted",
    "C82_national_zero_refuted",
    "C82_knots_refuted",
    "C82_sigma_refuted",
    "C82_column_refuted",
    "C82_slope_warning_refuted"
   ],
   "note": "Distributions are batches of laws with known ends of support; TFP's broadcasting of batch shapes is modelled, names and float types are not. Seven plausible stronger claims are refuted by witnesses."
  },
  {
   "property": "C83",
   "status": "proved",
   "theorems": [
    "C83_accepted",
    "C83_order",
    "C83_order_unique",
    "C83_arguments",
    "C83_density",
    "C83_nested",
    "C83_independent_refuted"
   ],
   "note": "Components are arbitrary functions of their elements; draws are a function of the (stateless) seed, one draw at a time. The claim in the name of the class is refuted for every pair of equal scalar components."
  },
  {
   "property": "C84",
   "status": "proved",
   "theorems": [
    "C84_equal",
    "C84_itself",
    "C84_warnings",
    "C84_symmetric_refuted",
    "C84_transitive_refuted",
    "C84_name_refuted",
    "C84_shape_refuted",
    "C84_answers_refuted",
    "C84_organic_refuted"
   ],
   "note": "C84_equal is an iff against the inductive relation `same` of S_DistEqual.v. Findings: nearness is relative to the second argument (neither symmetric nor transitive); the name of a distribution is compared, so the default law under another name is custom (and switches off the total-contribution prior of C40/C82); arrays of different lengths raise; IGNORED_PRIORS_ORGANIC_*, IGNORED_PRIORS_NON_MEDIA_TREATMENTS are defined but never read, so ignored organic and non-media priors are never warned about. Arrays of at most one dimension."
  },
  {
   "property": "C85",
   "status": "proved",
   "theorems": [
    "C85_report",
    "C85_weighted_roi",
    "C85_total_cpik",
    "C85_reciprocal_refuted",
    "C85_label_refuted",
    "C85_label",
    "C85_target_roi",
    "C85_target_mroi",
    "C85_silent_refuted",
    "C85_deltas",
    "C85_waterfall",
    "C85_joins_refuted",
    "C85_limits",
    "C85_curves"
   ],
   "note": "Refuted: total CPIK is budget over total outcome (C85_reciprocal_refuted); the label says whether the outcome is revenue (C85_label_refuted; C85_label gives the cases where it does); a missed target ROI is warned about (C85_silent_refuted); waterfall bars join for every set of names (C85_joins_refuted)."
  },
  {
   "property": "C86",
   "status": "proved",
   "theorems": [
    "C86_outliers",
    "C86_std",
    "C86_number",
    "C86_too_few",
    "C86_mostly_constant",
    "C86_units",
    "C86_costs",
    "C86_one_price",
    "C86_constant_refuted",
    "C86_price_jump_refuted"
   ],
   "note": "Refuted: every constant series is reported (C86_constant_refuted: one known value); a thousandfold jump of a unit price is reported (C86_price_jump_refuted: three periods on air)."
  },
  {
   "property": "C87",
   "status": "proved",
   "theorems": [
    "C87_periods",
    "C87_national_rf",
    "C87_available",
    "C87_blocked",
    "C87_builds_refuted",
    "C87_national_media",
    "C87_standardised",
    "C87_sum_or_mean",
    "C87_aggregated"
   ],
   "note": "Refuted: a model that can be built can be checked and sampled (C87_builds_refuted: reach only before the first period of the KPI)."
  },
  {
   "property": "C88",
   "status": "proved",
   "theorems": [
    "C88_decay_runs",
    "C88_long_lag_refuted",
    "C88_decay_rows",
    "C88_decay_lags",
    "C88_decay_shape",
    "C88_last_lag_refuted",
    "C88_beyond_data_refuted",
    "C88_hill_runs",
    "C88_hill_rows",
    "C88_hill_shape",
    "C88_histogram",
    "C88_unsaturated_refuted",
    "C88_count_refuted"
   ],
   "note": "Refuted: every largest lag works (C88_long_lag_refuted: ZeroDivisionError above 1000); the largest lag is shown (C88_last_lag_refuted); effects are not negative (C88_beyond_data_refuted: binomial decay with fewer media periods than lags); channels with saturation 'none' are drawn as transformed (C88_unsaturated_refuted); count_histogram holds counts (C88_count_refuted: it is a density)."
  },
  {
   "property": "C89",
   "status": "proved",
   "theorems": [
    "C89_decay_accepted",
    "C89_refusals",
    "C89_self_refuted",
    "C89_saturation_accepted",
    "C89_decay_assigned",
    "C89_saturation_assigned",
    "C89_order",
    "C89_parameters",
    "C89_scaling",
    "C89_scaling_refused",
    "C89_control_name_refuted",
    "C89_tensor",
    "C89_unset_refuted"
   ],
   "note": "Refuted: any channel may be given a function by name (C89_self_refuted: a channel called 'self' gives a TypeError); every media channel has a scaling factor (C89_control_name_refuted: not one that shares a control's name, which the input data allow); a missing parameter gives a ValueError (C89_unset_refuted: TypeError when the tensor is not set)."
  },
  {
   "property": "C90",
   "status": "proved",
   "theorems": [
    "C90_labels",
    "C90_by_label",
    "C90_paid",
    "C90_new_dates_refuted"
   ],
   "note": "Refuted: new data of the historical length are labelled with their own dates (C90_new_dates_refuted: the dates of the model are used)."
  },
  {
   "property": "C91",
   "status": "proved",
   "theorems": [
    "C91_table",
    "C91_means_add",
    "C91_split_refuted",
    "C91_lookalike_refuted"
   ],
   "note": "Refuted: sums are split by evaluation set (C91_split_refuted: a sum over observations of both kinds is NaN in both sets); the values do not depend on the number of draws (C91_lookalike_refuted: with as many draws and periods as geos, and as many channels, sums over periods are sums over geos)."
  },
  {
   "property": "C92",
   "status": "proved",
   "theorems": [
    "C92_accepted",
    "C92_thinned",
    "C92_gaps",
    "C92_equal_chance",
    "C92_rounding",
    "C92_history",
    "C92_restored",
    "C92_stale_refuted",
    "C92_all_kept_refuted",
    "C92_health_refuted"
   ],
   "note": "Refuted: after a new fit, restoring gives the new fit (C92_stale_refuted: the posterior preserved from the previous fit replaces it); a thinning with the original preserved can be undone (C92_all_kept_refuted: not when all draws are kept); the health summary is about the posterior at hand (C92_health_refuted)."
  },
  {
   "property": "C93",
   "status": "proved",
   "theorems": [
    "C93_posterior_labels",
    "C93_prior_labels",
    "C93_round_trip",
    "C93_exact",
    "C93_health",
    "C93_review_accepted",
    "C93_names_refuted",
    "C93_parameters_refuted",
    "C93_health_refuted",
    "C93_custom_battery_refuted"
   ],
   "note": "Labelling by ArviZ is modelled from its documentation (M_Restore convert). Refuted: draws of a model with other names are refused (C93_names_refuted: only sizes are compared); draws without parameters are refused (C93_parameters_refuted); an accepted health summary is one a review can return (C93_health_refuted); every summary of a review is accepted (C93_custom_battery_refuted: not with further checks)."
  },
  {
   "property": "C94",
   "status": "proved",
   "theorems": [
    "C94_cells",
    "C94_kept",
    "C94_accepted",
    "C94_geos",
    "C94_organic_rf_refuted",
    "C94_national_shape_refuted",
    "C94_one_geo_refuted",
    "C94_failed_call_refuted"
   ],
   "note": "Proved for every history of calls. Labels that only pandas can read as dates are refused by the coordinate setters in the model, by the array methods in the code. Findings: the organic frequency array is named organic_reach (nd_array_input_data_builder.py:410), so that InputData refuses all data with organic reach and frequency; the documented one- and two-dimensional national shapes are refused; a single geo under its own name makes every array method raise; a refused array fixes the national geo."
  },
  {
   "property": "C95",
   "status": "proved",
   "theorems": [
    "C95_paid",
    "C95_all",
    "C95_adds_up",
    "C95_unknown",
    "C95_spend",
    "C95_baseline_present_refuted"
   ],
   "note": "Proved for batch size 100 and the historical data, which is what the class uses; ties are kept in order (pandas may order them differently). For the other treatments the rows are tied to the summary and the baseline tables of C60. Finding (C95_baseline_present_refuted): the total is found as outcome / share, so that the baseline's outcome is NaN when the channels add nothing."
  },
  {
   "property": "C96",
   "status": "proved",
   "theorems": [
    "C96_current",
    "C96_some_moment",
    "C96_bounded",
    "C96_stale",
    "C96_update_effective_refuted",
    "C96_table_after_update_refuted",
    "C96_updated"
   ],
   "note": "Proved over all histories, with functools.lru_cache modelled as a most-recently-used list of 128 entries keyed by object and spelling of the argument. Findings: update_summary_metrics does not clear the caches (visualizer.py:1556, 1593, 1748), so that repeated calls keep the old result (C96_stale for every change); spellings of the same call disagree (C96_update_effective_refuted); the contribution table mixes old and new periods (C96_table_after_update_refuted). C96_updated was added after a mutant (new level dropped) survived."
  },
  {
   "property": "C97",
   "status": "proved",
   "theorems": [
    "C97_table",
    "C97_batch_size",
    "C97_agrees_with_analyzer",
    "C97_zero",
    "C97_nondecreasing",
    "C97_weeks_add_up",
    "C97_agrees_for_revenue_refuted"
   ],
   "note": "Proved for all requests without new time coordinates. The multipliers are those of M_Weekly (create_multipliers). Finding: use_kpi is taken as given, so that for a revenue model with new revenue_per_kpi the grid and incremental_outcome disagree (C97_agrees_for_revenue_refuted)."
  },
  {
   "property": "C98",
   "status": "proved",
   "theorems": [
    "C98_spends",
    "C98_kinds",
    "C98_channels",
    "C98_adjacent",
    "C98_part_refuted",
    "C98_paid_refuted"
   ],
   "note": "Composition of the serializer of C73 with the planner's wrapper. Findings: spend by channel only is attributed to the first media period alone (C98_part_refuted); organic media appear among the planner's media channels (C98_paid_refuted)."
  },
  {
   "property": "C99",
   "status": "proved",
   "theorems": [
    "C99_bounds",
    "C99_own_grid",
    "C99_echo",
    "C99_statistics",
    "C99_answered",
    "C99_refused",
    "C99_batch",
    "C99_tables",
    "C99_constructors",
    "C99_spec_checks",
    "C99_unconstrained_refuted",
    "C99_open_total_refuted",
    "C99_zero_refuted",
    "C99_kpi_refuted",
    "C99_sheet_names_refuted"
   ],
   "note": "Composition of the processor with the optimizer of C76 and the planner's converters; statistics of draws and response curves are parameters (C35, C85). Findings: an unconstrained channel is limited to three times its share of the budget (C99_unconstrained_refuted); an open budget is reported as the rounded total (C99_open_total_refuted); target ROI 0 and budget 0 can be constructed but not run (C99_zero_refuted); KPI types may disagree (C99_kpi_refuted); sheet names may coincide (C99_sheet_names_refuted)."
  },
  {
   "property": "C100",
   "status": "proved",
   "theorems": [
    "C100_compact",
    "C100_compact_order",
    "C100_money",
    "C100_percent",
    "C100_number_text",
    "C100_headings",
    "C100_scenario_revenue",
    "C100_scenario_kpi",
    "C100_constraint_sentence",
    "C100_allocation_table",
    "C100_below_thousand_refuted",
    "C100_negative_zero_refuted",
    "C100_cents_refuted",
    "C100_one_decimal_refuted",
    "C100_negative_percent_refuted",
    "C100_roi_change_refuted",
    "C100_cpik_sign_refuted",
    "C100_infinite_cost_refuted",
    "C100_range_refuted",
    "C100_shares_total_refuted",
    "C100_apostrophe_refuted"
   ],
   "note": "Exact rationals: the binary rounding before a number is written is not modelled. Findings: 999999 is written 1000k (C100_below_thousand_refuted); small losses are written -$0 (C100_negative_zero_refuted); amounts below 1 lose their digits (C100_cents_refuted); the documented decimal place is not there (C100_one_decimal_refuted); negative percentages come in scientific notation (C100_negative_percent_refuted); the ROI change need not match the ROIs shown (C100_roi_change_refuted); a CPIK increase has no plus sign (C100_cpik_sign_refuted); an infinite CPIK makes the report fail (C100_infinite_cost_refuted); constraints are truncated (C100_range_refuted); rounded shares need not add up (C100_shares_total_refuted)."
  },
  {
   "property": "C101",
   "status": "proved",
   "theorems": [
    "C101_spec",
    "C101_analyses",
    "C101_accepted",
    "C101_off_calendar",
    "C101_planner",
    "C101_incremental_planner_refuted",
    "C101_tag_refuted",
    "C101_media_times_refuted",
    "C101_non_paid_refuted",
    "C101_empty_period_refuted",
    "C101_resolution",
    "C101_all_channels_last_refuted",
    "C101_all_channels_refuted",
    "C101_baseline_period_refuted",
    "C101_later_weeks_refuted",
    "C101_period_roi_refuted",
    "C101_zero_shares_refuted",
    "C101_monthly_refuted",
    "C101_documented_dates_refuted"
   ],
   "note": "The analyzer's tables are parameters constrained to their documented shape; NaN cells and messages' constants are left out. Findings: media_selected_times of a media summary and include_non_paid_channels of an incremental outcome are never used (C101_media_times_refuted, C101_non_paid_refuted); incremental outcome specs get no baseline and break the planner's table (C101_incremental_planner_refuted); no ALL tag is a KeyError (C101_tag_refuted); empty periods can be built (C101_empty_period_refuted); end dates of monthly data and of the module's own example are refused (C101_monthly_refuted, C101_documented_dates_refuted); the baseline ignores new data (C101_baseline_period_refuted, C101_later_weeks_refuted); zero ROI by period (C101_period_roi_refuted); division by zero (C101_zero_shares_refuted)."
  },
  {
   "property": "C102",
   "status": "proved",
   "theorems": [
    "C102_spec",
    "C102_results",
    "C102_accepted",
    "C102_minimum",
    "C102_low_frequencies",
    "C102_tables",
    "C102_curve_refuted",
    "C102_level_refuted",
    "C102_reach_refuted",
    "C102_share_refuted",
    "C102_tag_refuted",
    "C102_kind_refuted",
    "C102_below_one_refuted",
    "C102_valid_refuted"
   ],
   "note": "ROI at a frequency, metrics, curves and spend are parameters; floats are rationals, so np.arange's float boundary cases are not modelled; the search of the grid, rounding and NaN handling are. Findings: response curves are at other frequencies than reported (C102_curve_refuted); intervals at 0.9 labelled with the spec's level (C102_level_refuted); reach over all periods (C102_reach_refuted); share as a percentage (C102_share_refuted); tag dropped (C102_tag_refuted); outcome kind (C102_kind_refuted); frequencies below 1 (C102_below_one_refuted); valid specs that fail (C102_valid_refuted, C102_minimum, C102_low_frequencies)."
  },
  {
   "property": "C103",
   "status": "proved",
   "theorems": [
    "C103_spec",
    "C103_results",
    "C103_accepted",
    "C103_unsplit_refuted",
    "C103_unspecified_refuted",
    "C103_actual_refuted",
    "C103_mixed_refuted",
    "C103_planner",
    "C103_selected"
   ],
   "note": "Composes the models of expected_vs_actual_data (C91), predictive_accuracy (C61) and period bounds (C51); labels of periods are assumed distinct and dates evenly spaced, as input data requires; the shape coincidence of C91_lookalike_refuted is excluded. Findings: split=False on a model with a holdout always raises (C103_unsplit_refuted); an empty list of specs is an IndexError (C103_unspecified_refuted); actual values are not split (C103_actual_refuted); predictions undefined when every period is mixed while metrics are not (C103_mixed_refuted)."
  },
  {
   "property": "C104",
   "status": "proved",
   "theorems": [
    "C104_breakdown",
    "C104_accepted",
    "C104_groups",
    "C104_paired",
    "C104_tags",
    "C104_resolved",
    "C104_resolved_even",
    "C104_dispatch",
    "C104_frequency_refuted",
    "C104_last_month_refuted",
    "C104_monthly_refuted"
   ],
   "note": "What the generator does not read of a spec is a parameter type. Uses the date bucket theorems of C44 and the resolver of C101 on calendar dates. Findings: monthly data, whose interval is rounded to 30 days, yields buckets that no processor can resolve (C104_monthly_refuted) and loses the last 31-day month with its quarter and year (C104_last_month_refuted); the maximum frequency of a budget optimization is validated only by the optimization derived from it (C104_frequency_refuted)."
  },
  {
   "property": "C105",
   "status": "proved",
   "theorems": [
    "C105_accepted",
    "C105_refused",
    "C105_loaded",
    "C105_names",
    "C105_mapping_refused",
    "C105_kpi_kept_refuted",
    "C105_later_gap_refuted"
   ],
   "note": "Composed with the builder of C38 (M_Builder). Arrays have their documented dimensions (channel and time dimensions with coordinates); the checks of InputData other than missing values are a parameter. Findings: C105_kpi_kept_refuted, C105_later_gap_refuted."
  },
  {
   "property": "C106",
   "status": "proved",
   "theorems": [
    "C106_chart",
    "C106_accepted",
    "C106_largest",
    "C106_negative_refuted",
    "C106_update",
    "C106_update_refuted",
    "C106_band_refuted"
   ],
   "note": "Built on the analyzer's table of C91 (M_FitTable), with the default batch size. Drawing itself is not modelled. Ties in population keep the order of the data (pandas leaves it open). Findings: C106_update_refuted, C106_band_refuted, C106_negative_refuted."
  },
  {
   "property": "C107",
   "status": "proved",
   "theorems": [
    "C107_upload",
    "C107_leftover_refuted",
    "C107_quote",
    "C107_url",
    "C107_warnings",
    "C107_report",
    "C107_frequency_refuted"
   ],
   "note": "The spreadsheet service is outside the repository; what is assumed of it (ids are new, taken titles and removing the last tab are refused, a batch is atomic) is the section Service of M_Sheets. The reading of a URL (S_Sheets) is independent of the code. Findings: C107_leftover_refuted, C107_frequency_refuted."
  },
  {
   "property": "C108",
   "status": "proved",
   "theorems": [
    "C108_count",
    "C108_layered",
    "C108_separate",
    "C108_cap_refuted",
    "C108_title_refuted",
    "C108_order_refuted",
    "C108_optimized",
    "C108_all",
    "C108_too_many",
    "C108_negative_refuted",
    "C108_lines",
    "C108_points",
    "C108_zero_refuted",
    "C108_padding",
    "C108_domain",
    "C108_clipped_refuted"
   ],
   "note": "The values of the curves are those of C35 (given here); the marks, axes and colours of the charts are not modelled, the rows drawn and the conditions on them are. Findings: C108_cap_refuted, C108_title_refuted, C108_order_refuted, C108_negative_refuted, C108_zero_refuted, C108_clipped_refuted."
  },
  {
   "property": "C109",
   "status": "proved",
   "theorems": [
    "C109_period",
    "C109_quarter_refuted",
    "C109_drivers",
    "C109_performance",
    "C109_names_refuted",
    "C109_cpik_refuted",
    "C109_frequency"
   ],
   "note": "The metrics are given (C34-C37 and others prove them); HTML and the rounding of numbers in the sentences are not modelled; capitals are modelled for ASCII. Findings: C109_quarter_refuted, C109_names_refuted, C109_cpik_refuted."
  },
  {
   "property": "C110",
   "status": "proved",
   "theorems": [
    "C110_rows",
    "C110_counts_refuted",
    "C110_failure_refuted",
    "C110_statuses"
   ],
   "note": "The results are given (C38 and others prove the checks); HTML is not modelled, nor are subclasses of the result classes. No shipped check of ROI consistency or shift fails, so C110_failure_refuted concerns results built by hand. Findings: C110_counts_refuted, C110_failure_refuted."
  },
  {
   "property": "C111",
   "status": "proved",
   "theorems": [
    "C111_tables",
    "C111_sheet_name",
    "C111_names_refuted"
   ],
   "note": "The contents of the tables are given (C99, C101-C103 prove them); blanks are those of ASCII. Finding: C111_names_refuted."
  }
 ]
}