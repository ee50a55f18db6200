{
 "claims": [
  {
   "property": "C01",
   "status": "proved",
   "theorems": [
    "C01_scale_round_trip",
    "C01_scaled_values"
   ],
   "note": "For every scale the forecaster can hold after _set_y_scales (float, int, DataFrame or Series), over exact reals."
  },
  {
   "property": "C02",
   "status": "proved",
   "theorems": [
    "C02_within_unit_interval",
    "C02_bound_attained",
    "C02_zero_series_unchanged"
   ],
   "note": "Values of a series lie in [-1,1], the bound is attained for non-zero series, zero series are unchanged."
  },
  {
   "property": "C03",
   "status": "partial",
   "theorems": [
    "C03_auto_panel_partial",
    "C03_auto_single_partial",
    "C03_float_partial",
    "C03_zero_series_refuted",
    "C03_int_scale_refuted",
    "C03_series_scale_refuted"
   ],
   "note": "Violated: an all-zero single series, any int scale and any pandas Series scale raise. The working cases (panels, non-zero single series, float scales) are proved."
  },
  {
   "property": "C04",
   "status": "proved",
   "theorems": [
    "C04_target_unscaled",
    "C04_negbinomial_mean"
   ],
   "note": "Scaling functions are the identity for discrete likelihoods (hence predict_samples by C52); mean of the negative binomial proved through the whole model function."
  },
  {
   "property": "C05",
   "status": "partial",
   "theorems": [
    "C05_history_partial",
    "C05_forecast_partial",
    "C05_zero_series_refuted"
   ],
   "note": "Proved for every history of calls, every engine and both classes, provided no series of a panel is zero throughout (refuted there: such a series keeps scale 1 in any units). In HierarchicalProphet the trend object must not be a lift experiment."
  },
  {
   "property": "C06",
   "status": "proved",
   "theorems": [
    "C06_first_last_monotone",
    "C06_regular_grid"
   ],
   "note": ""
  },
  {
   "property": "C07",
   "status": "proved",
   "theorems": [
    "C07_affine_invariance"
   ],
   "note": ""
  },
  {
   "property": "C08",
   "status": "proved",
   "theorems": [
    "C08_whole_seconds",
    "C08_differences",
    "C08_order",
    "C08_order_strict",
    "C08_not_injective"
   ],
   "note": ""
  },
  {
   "property": "C09",
   "status": "proved",
   "theorems": [
    "C09_grid"
   ],
   "note": ""
  },
  {
   "property": "C10",
   "status": "partial",
   "theorems": [
    "C10_fraction_partial",
    "C10_first_points_partial",
    "C10_negative_partial",
    "C10_negative_refuted",
    "C10_one_refuted",
    "C10_after_end_refuted",
    "C10_before_end_partial"
   ],
   "note": "Fractions and 'first r points' proved on the grid. Refuted: a negative range drops one point more than documented, r=1.0 leaves only the changepoint at 0, and a range beyond the history puts changepoints after its end."
  },
  {
   "property": "C11",
   "status": "proved",
   "theorems": [
    "C11_grid",
    "C11_after",
    "C11_before"
   ],
   "note": ""
  },
  {
   "property": "C12",
   "status": "partial",
   "theorems": [
    "C12_continuity_refuted",
    "C12_continuity_partial",
    "C12_grid_interpolation_partial"
   ],
   "note": "Refuted: each changepoint at or after time 1 adds a jump of one coefficient. Proved: continuity away from changepoints, and agreement with a continuous hinge function on the integer grid. Stated on the values the trend computes."
  },
  {
   "property": "C13",
   "status": "proved",
   "theorems": [
    "C13_block_isolation",
    "C13_single_series"
   ],
   "note": ""
  },
  {
   "property": "C14",
   "status": "proved",
   "theorems": [
    "C14_no_changepoints_iff",
    "C14_otherwise_starts_at_zero",
    "C14_never_another_error"
   ],
   "note": ""
  },
  {
   "property": "C15",
   "status": "partial",
   "theorems": [
    "C15_prior_location_refuted",
    "C15_always_zero_partial"
   ],
   "note": "Refuted: the functional update of the location vector is discarded, so every location is zero (proved for every fit)."
  },
  {
   "property": "C16",
   "status": "partial",
   "theorems": [
    "C16_fit_partial",
    "C16_first_partial",
    "C16_last_refuted"
   ],
   "note": "First endpoint proved; last endpoint refuted for every series with different end values (sign of the rate)."
  },
  {
   "property": "C17",
   "status": "proved",
   "theorems": [
    "C17_fit",
    "C17_logistic_interpolates"
   ],
   "note": ""
  },
  {
   "property": "C18",
   "status": "partial",
   "theorems": [
    "C18_exact_partial",
    "C18_zero_partial",
    "C18_outside",
    "C18_positive_data_refuted",
    "C18_positive_data_partial"
   ],
   "note": "Refuted with the default initial detrending (line below zero); proved without it for data below the capacity."
  },
  {
   "property": "C19",
   "status": "partial",
   "theorems": [
    "C19_independence_refuted",
    "C19_independence_partial"
   ],
   "note": "Refuted when another series starts at zero; proved otherwise."
  },
  {
   "property": "C20",
   "status": "proved",
   "theorems": [
    "C20_bounds",
    "C20_single_series",
    "C20_own_capacity",
    "C20_scalar_bounds",
    "C20_increasing"
   ],
   "note": ""
  },
  {
   "property": "C21",
   "status": "partial",
   "theorems": [
    "C21_constant",
    "C21_prior_partial",
    "C21_prior_refuted"
   ],
   "note": "Constancy and moments proved for positive mean; refuted for non-positive mean (invalid Gamma prior)."
  },
  {
   "property": "C22",
   "status": "proved",
   "theorems": [
    "C22_slope_after_last",
    "C22_slope_between",
    "C22_single_series"
   ],
   "note": "Stated on the values computed by the trend itself, for any changepoints, offsets and coefficients."
  },
  {
   "property": "C23",
   "status": "partial",
   "theorems": [
    "C23_unfitted_partial",
    "C23_flag",
    "C23_clone_partial",
    "C23_fourier_refuted"
   ],
   "note": "Refuted for LinearFourierSeasonality (AttributeError). Proved for all other classes, fresh, cloned or after a rejected fit."
  },
  {
   "property": "C24",
   "status": "proved",
   "theorems": [
    "C24_no_columns",
    "C24_all_columns",
    "C24_skipped",
    "C24_take_part",
    "C24_classes",
    "C24_univariate",
    "C24_hierarchical",
    "C24_table"
   ],
   "note": "Effect classes in PropEffects; the effects of a fitted forecaster in PropForecaster. C24_table states it for the table the effects are given, with or without a feature transformer; C24_univariate and C24_hierarchical describe the columns of that table without one."
  },
  {
   "property": "C25",
   "status": "proved",
   "theorems": [
    "C25_data_seen",
    "C25_columns_permuted",
    "C25_order_of_fit"
   ],
   "note": "For every class, any fit and any two frames that agree on the columns seen and the horizon."
  },
  {
   "property": "C26",
   "status": "partial",
   "theorems": [
    "C26_additive",
    "C26_multiplicative",
    "C26_classes",
    "C26_invalid_mode_partial",
    "C26_fourier_invalid_mode_partial",
    "C26_fourier_constructor_refuted"
   ],
   "note": "Values proved for every class with a mode. Invalid modes are rejected at construction except by LinearFourierSeasonality, which only fails at fit."
  },
  {
   "property": "C27",
   "status": "proved",
   "theorems": [
    "C27_dot_product",
    "C27_additive",
    "C27_homogeneous",
    "C27_zero_features",
    "C27_permuted",
    "C27_total"
   ],
   "note": "On the raw program, for arrays of any leading shape."
  },
  {
   "property": "C28",
   "status": "proved",
   "theorems": [
    "C28_formula",
    "C28_non_negative_input",
    "C28_zero",
    "C28_monotone"
   ],
   "note": ""
  },
  {
   "property": "C29",
   "status": "proved",
   "theorems": [
    "C29_between",
    "C29_half",
    "C29_monotone",
    "C29_limit",
    "C29_total"
   ],
   "note": ""
  },
  {
   "property": "C30",
   "status": "partial",
   "theorems": [
    "C30_zero_refuted",
    "C30_monotone_refuted"
   ],
   "note": "Refuted for all parameters: the value at zero is the maximal effect, because exponent_safe maps 0 to 0."
  },
  {
   "property": "C31",
   "status": "proved",
   "theorems": [
    "C31_same_value",
    "C31_likelihood",
    "C31_inner_data"
   ],
   "note": "Value, likelihood site (one term per horizon date, zero without lift) and data of the wrapped effect."
  },
  {
   "property": "C32",
   "status": "proved",
   "theorems": [
    "C32_periodic"
   ],
   "note": "For any list of periods, shifted by a common multiple of them."
  },
  {
   "property": "C33",
   "status": "partial",
   "theorems": [
    "C33_refit_partial",
    "C33_refit_fourier_partial",
    "C33_refit_refuted"
   ],
   "note": "Refuted for LinearFourierSeasonality (expander of an earlier panel fit survives); proved for all other classes and for seasonalities without such a history."
  },
  {
   "property": "C34",
   "status": "proved",
   "theorems": [
    "C34_rejected",
    "C34_linear_accepts",
    "C34_fourier_accepts",
    "C34_classes"
   ],
   "note": ""
  },
  {
   "property": "C35",
   "status": "proved",
   "theorems": [
    "C35_log",
    "C35_hill",
    "C35_log_total"
   ],
   "note": ""
  },
  {
   "property": "C36",
   "status": "proved",
   "theorems": [
    "C36_normal",
    "C36_gamma",
    "C36_hierarchical",
    "C36_hierarchical_single_series",
    "C36_no_effects",
    "C36_recorded_components"
   ],
   "note": "All model functions, for every trend program, effect programs, data and draws. Effect names must be distinct and not 'trend' (otherwise components are overwritten, see C71)."
  },
  {
   "property": "C37",
   "status": "proved",
   "theorems": [
    "C37_shipped_effects",
    "C37_normal",
    "C37_gamma",
    "C37_negbinomial",
    "C37_hierarchical",
    "C37_same_density",
    "C37_fit",
    "C37_predict"
   ],
   "note": "Trace equality up to order, hence same density and forecasts, for slash-free distinct names; shipped effects are shown to be trend-only in the effects file. C37_fit and C37_predict are the statement for whole forecasters, in both directions."
  },
  {
   "property": "C38",
   "status": "proved",
   "theorems": [
    "C38_fit",
    "C38_predict"
   ],
   "note": "Proved for fitting and for every later prediction, any effects, names may repeat."
  },
  {
   "property": "C39",
   "status": "proved",
   "theorems": [
    "C39_univariate",
    "C39_hierarchical",
    "C39_contributes"
   ],
   "note": "Proved: with X=None the flag is truthy in both cases (~ of a bool), the participating effects are exactly those needing no columns, and each contributes. C39_univariate, C39_hierarchical and C39_contributes are stated without a feature transformer; C92 relates fits and forecasts with one to those on the transformed data."
  },
  {
   "property": "C40",
   "status": "proved",
   "theorems": [
    "C40_columns",
    "C40_table"
   ],
   "note": "Proved for both forecasters; patterns are prefix matches as in C42. C40_table pins the table the effects select from, with or without a feature transformer."
  },
  {
   "property": "C41",
   "status": "partial",
   "theorems": [
    "C41_fit_partial",
    "C41_predict_partial",
    "C41_same_name_refuted",
    "C41_default_name_refuted",
    "C41_table_fit_partial",
    "C41_table_predict_partial"
   ],
   "note": "Proved for distinct, non-reserved names. Refuted for repeated names and for the reserved name exogenous_variables_effect: the overwritten effect's data do not influence the model. C41_table_fit_partial and C41_table_predict_partial state it for both forecasters and the table the effects are given, with or without a feature transformer."
  },
  {
   "property": "C42",
   "status": "partial",
   "theorems": [
    "C42_exact_partial",
    "C42_starts_with_partial",
    "C42_no_input_columns_partial",
    "C42_matcher_correct",
    "C42_exact_refuted",
    "C42_exact_missing_refuted",
    "C42_starts_with_refuted",
    "C42_starts_with_empty_refuted"
   ],
   "note": "Refuted in general: the helpers do not escape metacharacters. Proved for metacharacter-free names; the matcher is proved against the declarative semantics for all patterns."
  },
  {
   "property": "C43",
   "status": "partial",
   "theorems": [
    "C43_shared_features_partial",
    "C43_shared_features_refuted"
   ],
   "note": "Refuted: names of the columns to expand are used as regex prefixes, so a shared column with such a prefix is expanded. Proved when no non-shared name is a prefix of a shared one."
  },
  {
   "property": "C44",
   "status": "partial",
   "theorems": [
    "C44_expansion_isolates_partial",
    "C44_single_series_unchanged",
    "C44_expansion_isolates_refuted"
   ],
   "note": "Proved whenever the generated names are distinct and new; refuted otherwise (a user column is overwritten)."
  },
  {
   "property": "C45",
   "status": "partial",
   "theorems": [
    "C45_names_injective_partial",
    "C45_series_refuted",
    "C45_column_refuted"
   ],
   "note": "Refuted ('-' in level values, '_dup_' in names). Proved when level values contain no '_' (and no '-' with several levels)."
  },
  {
   "property": "C46",
   "status": "proved",
   "theorems": [
    "C46_bounded_below",
    "C46_identity",
    "C46_monotone_continuous",
    "C46_model_location"
   ],
   "note": "Over exact reals."
  },
  {
   "property": "C47",
   "status": "proved",
   "theorems": [
    "C47_moments",
    "C47_injective"
   ],
   "note": "Over exact reals."
  },
  {
   "property": "C48",
   "status": "proved",
   "theorems": [
    "C48_normal",
    "C48_gamma",
    "C48_negbinomial",
    "C48_never_fails"
   ],
   "note": "Validity for every positive noise draw; also: the likelihood part never fails."
  },
  {
   "property": "C49",
   "status": "partial",
   "theorems": [
    "C49_standard_deviation_refuted",
    "C49_actual_covariance_partial",
    "C49_unit_deviations_partial"
   ],
   "note": "Violated: D L D is passed as Cholesky factor. The actual covariance is proved, and agreement when all deviations are one."
  },
  {
   "property": "C50",
   "status": "proved",
   "theorems": [
    "C50_bottom_of_aggregate",
    "C50_sorted_input",
    "C50_order_preserving",
    "C50_idempotent",
    "C50_no_levels"
   ],
   "note": "The aggregator (external) is modelled with an arbitrary choice of aggregate nodes."
  },
  {
   "property": "C51",
   "status": "proved",
   "theorems": [
    "C51_coherent",
    "C51_all_aggregates_present"
   ],
   "note": "For every choice of aggregate nodes; samples and point forecasts."
  },
  {
   "property": "C52",
   "status": "proved",
   "theorems": [
    "C52_many_series",
    "C52_hierarchical",
    "C52_single_series"
   ],
   "note": "Univariate, many-series and hierarchical predict_samples."
  },
  {
   "property": "C53",
   "status": "partial",
   "theorems": [
    "C53_positions_partial",
    "C53_multivariate_obs_refuted"
   ],
   "note": "Violated for the multivariate obs site (time-major entries under series-major labels); proved for all other sites."
  },
  {
   "property": "C54",
   "status": "partial",
   "theorems": [
    "C54_off_by_scale_partial",
    "C54_agree_without_scale_partial",
    "C54_refuted"
   ],
   "note": "Violated: predict_all_sites_samples is not scaled back. The exact factor between both is proved."
  },
  {
   "property": "C55",
   "status": "partial",
   "theorems": [
    "C55_each_series_once_partial",
    "C55_no_duplicates",
    "C55_values",
    "C55_full_crossing_partial",
    "C55_phantom_series_refuted"
   ],
   "note": "Violated for unbalanced hierarchies (phantom series); exact when every combination of level values exists."
  },
  {
   "property": "C56",
   "status": "proved",
   "theorems": [
    "C56_tensor",
    "C56_unequal_lengths",
    "C56_no_levels"
   ],
   "note": ""
  },
  {
   "property": "C57",
   "status": "partial",
   "theorems": [
    "C57_fit_partial",
    "C57_predict_partial",
    "C57_series_order_refuted"
   ],
   "note": "Proved for a sorted X; the row order of X matters (refuted). C57_fit_partial and C57_predict_partial are stated without a feature transformer; C92 relates fits and forecasts with one to those on the transformed data."
  },
  {
   "property": "C58",
   "status": "partial",
   "theorems": [
    "C58_isolated",
    "C58_labels_lost_refuted",
    "C58_ambiguous_rows_refuted"
   ],
   "note": "Isolation proved; series labels are lost for every panel. C99 shows that they can be restored by position."
  },
  {
   "property": "C59",
   "status": "proved",
   "theorems": [
    "C59_mean_of_samples",
    "C59_between_samples"
   ],
   "note": ""
  },
  {
   "property": "C60",
   "status": "proved",
   "theorems": [
    "C60_columns",
    "C60_levels_accepted",
    "C60_no_crossing",
    "C60_within_samples",
    "C60_interpolates_order_statistics",
    "C60_order_of_samples",
    "C60_scales"
   ],
   "note": "Linear interpolation between order statistics, as pandas."
  },
  {
   "property": "C61",
   "status": "partial",
   "theorems": [
    "C61_univariate",
    "C61_absolute",
    "C61_hierarchical_partial",
    "C61_stale_refuted"
   ],
   "note": "Proved for Prophetverse after every history and for absolute horizons in both classes; for HierarchicalProphet with relative horizons when the last fit or refitting update is followed by predictions only. Refuted after update without refitting: labels count from the new data, features from the old."
  },
  {
   "property": "C62",
   "status": "proved",
   "theorems": [
    "C62_result",
    "C62_anywhere",
    "C62_data"
   ],
   "note": "Proved for every history, class and engine: predictions may be removed from any place of a history without changing any later result."
  },
  {
   "property": "C63",
   "status": "partial",
   "theorems": [
    "C63_key",
    "C63_processes_partial",
    "C63_hierarchical_refuted"
   ],
   "note": "The key is 24 and fits of single series do not depend on the hash seed. Refuted for HierarchicalProphet: column order after expansion follows a Python set of strings, so runs in different processes build different models."
  },
  {
   "property": "C64",
   "status": "partial",
   "theorems": [
    "C64_accepts_partial",
    "C64_exact",
    "C64_error",
    "C64_trend_built",
    "C64_trend_arguments",
    "C64_names",
    "C64_nan_refuted"
   ],
   "note": "Proved for parameters other than NaN, with ValueError as the only error. Refuted for NaN, which passes every check. After a successful check the trend model can be built."
  },
  {
   "property": "C65",
   "status": "partial",
   "theorems": [
    "C65_effects",
    "C65_isolation_partial",
    "C65_trend_object_refuted",
    "C65_shared_trend_refuted",
    "C65_shared_transformer_refuted"
   ],
   "note": "Proved for effects (cloned) and for forecasters with trend objects and transformers of their own; refuted for shared trend objects and shared transformers, which are fitted in place."
  },
  {
   "property": "C66",
   "status": "proved",
   "theorems": [
    "C66_map",
    "C66_unknown"
   ],
   "note": "Proved for every loss sequence; NaN before the end is not reported, infinite losses are accepted."
  },
  {
   "property": "C67",
   "status": "proved",
   "theorems": [
    "C67_map",
    "C67_mcmc"
   ],
   "note": "Proved for every engine, horizon, number of series."
  },
  {
   "property": "C68",
   "status": "proved",
   "theorems": [
    "C68_settings",
    "C68_lengths"
   ],
   "note": "Proved for every pair of arguments, including values that are neither booleans nor integers."
  },
  {
   "property": "C69",
   "status": "partial",
   "theorems": [
    "C69_keeps_partial",
    "C69_write_back_partial",
    "C69_set_param_partial",
    "C69_empty_refuted",
    "C69_truncates",
    "C69_triples_fail"
   ],
   "note": "Proved for non-empty lists. Refuted for the empty list, which raises IndexError when written back; shorter lists drop effects silently and triples raise."
  },
  {
   "property": "C70",
   "status": "partial",
   "theorems": [
    "C70_keeps_partial",
    "C70_drop_refuted",
    "C70_needs",
    "C70_hierarchical_partial"
   ],
   "note": "Refuted for Prophetverse: the trend is fitted on the raw X and later asks for its columns, so the fit fails with KeyError exactly when the transformer drops one. Preparation of the trend succeeds if columns are kept, and always in HierarchicalProphet."
  },
  {
   "property": "C71",
   "status": "proved",
   "theorems": [
    "C71_fit",
    "C71_predict",
    "C71_effects_disjoint",
    "C71_all_distinct",
    "C71_distinct_names_run"
   ],
   "note": "Disjointness for slash-free parameter names; distinctness of all sites for slash-free, non-reserved effect names, also for the models built by complete fits and predictions. Counterexamples show both conditions are needed."
  },
  {
   "property": "C72",
   "status": "partial",
   "theorems": [
    "C72_complete_partial",
    "C72_unknown_series_refuted"
   ],
   "note": "Proved for piecewise trends and linear effects when X has no unknown series; unknown series can fill the gaps (refuted). C72_complete_partial is stated without a feature transformer; C92 relates fits and forecasts with one to those on the transformed data."
  },
  {
   "property": "C73",
   "status": "proved",
   "theorems": [
    "C73_fit",
    "C73_update",
    "C73_stored",
    "C73_mismatch"
   ],
   "note": "Proved for every history. Assumes transformers forget their state when fitted (sktime's contract) and, for a trend object, that it is a shipped trend or a stateless effect."
  },
  {
   "property": "C74",
   "status": "partial",
   "theorems": [
    "C74_univariate_partial",
    "C74_hierarchical_partial",
    "C74_flat_refuted"
   ],
   "note": "Proved for one series (piecewise trends, or flat without transformer) and for balanced panels with piecewise trends. Refuted in general for the flat trend with several series: every run has different shapes, so HierarchicalProphet(trend='flat') is unusable with more than one series."
  },
  {
   "property": "C75",
   "status": "proved",
   "theorems": [
    "C75_univariate",
    "C75_hierarchical",
    "C75_transformed_univariate",
    "C75_transformed_panel"
   ],
   "note": "Proved for every prediction method and engine. A feature transformer may read whatever it is given, so with one the statement is about what it returns (C75_transformed_univariate, C75_transformed_panel). For panels the two frames must have the same columns and series."
  },
  {
   "property": "C76",
   "status": "partial",
   "theorems": [
    "C76_univariate_partial",
    "C76_hierarchical_partial",
    "C76_bare_partial",
    "C76_crossing_refuted"
   ],
   "note": "Proved for one series with ascending index, for panels with exogenous columns covering the training dates, and for panels without columns when every combination of level values is a series. Refuted without that last condition: the prediction's index contains series that do not exist (see C55). The panel used there has the flat trend. For panels, a feature transformer has to return a table with columns."
  },
  {
   "property": "C77",
   "status": "partial",
   "theorems": [
    "C77_normal",
    "C77_gamma",
    "C77_gamma_general",
    "C77_counts",
    "C77_counts_units_refuted",
    "C77_hierarchical",
    "C77_hierarchical_one_series"
   ],
   "note": "Normal, gamma (exact above the positivity threshold, general form through the positive transform), hierarchical with several series and a piecewise trend, and with one series. Refuted for counts: the columns are the expected observation divided by the scale."
  },
  {
   "property": "C78",
   "status": "proved",
   "theorems": [
    "C78_fit",
    "C78_forecast",
    "C78_methods",
    "C78_components",
    "C78_transformed_fit",
    "C78_transformed_forecast",
    "C78_transformed_methods",
    "C78_transformed_components"
   ],
   "note": "Full for Prophetverse. Without feature transformer: C78_fit (fit reaches the engine with a model that runs), C78_forecast and C78_methods (samples, point forecasts, quantiles) and C78_components (predict_all_sites and predict_all_sites_samples). Hypotheses on inputs are stated by well_posed; the engine may still fail, its draws must be positive where a Hill effect takes a power, and for the component tables its posterior must name exactly the unobserved sample sites of the trained model. With a feature transformer: C78_transformed_fit, C78_transformed_forecast, C78_transformed_methods and C78_transformed_components, for transformers whose output is well posed and keeps the columns of X, which the trend asks for (C70); C92_total_fit and C92_total_forecast derive samples from the equality with the fit on the transformed data. HierarchicalProphet is C91."
  },
  {
   "property": "C79",
   "status": "proved",
   "theorems": [
    "C79_runs",
    "C79_stack"
   ],
   "note": "Full for both classes, all trends and effects."
  },
  {
   "property": "C80",
   "status": "partial",
   "theorems": [
    "C80_stored",
    "C80_unknown",
    "C80_accepts",
    "C80_clone",
    "C80_legacy",
    "C80_test_params",
    "C80_documented_trend_refuted",
    "C80_documented_parameters_refuted"
   ],
   "note": "Storing, cloning, rejection, acceptance and the three older classes are full. Refuted: the docstrings' default trend of the older classes (linear; it is logistic), the documented parameter default_exogenous_prior (unknown keyword) and scale for HierarchicalProphet."
  },
  {
   "property": "C81",
   "status": "partial",
   "theorems": [
    "C81_numpyro",
    "C81_default",
    "C81_optax",
    "C81_mcmc",
    "C81_optax_default_refuted"
   ],
   "note": "Full except that an optax name without keyword arguments fails in every MAP fit: the default arguments are not those of the schedule."
  },
  {
   "property": "C82",
   "status": "partial",
   "theorems": [
    "C82_plot_trace_refuted",
    "C82_var_names_refuted"
   ],
   "note": "Refuted: the engines keep no attribute mcmc_, so plot_trace always raises AttributeError, and the fit data have no key distributions, so var_names is always empty."
  },
  {
   "property": "C83",
   "status": "proved",
   "theorems": [
    "C83_columns",
    "C83_order",
    "C83_unambiguous",
    "C83_rejected",
    "C83_exact_escaped",
    "C83_starts_with_escaped"
   ],
   "note": "Full for the modelled pattern syntax (character classes, counted, lazy and possessive quantifiers and alphanumeric escapes are outside and count as errors)."
  },
  {
   "property": "C84",
   "status": "partial",
   "theorems": [
    "C84_line",
    "C84_unique",
    "C84_series",
    "C84_rate_refuted"
   ],
   "note": "The replacement by the least squares line is full (least, unique, no series added or lost). Refuted for the suggestion: the rate is minus the slope."
  },
  {
   "property": "C85",
   "status": "proved",
   "theorems": [
    "C85_select",
    "C85_loc",
    "C85_bottom",
    "C85_loc_bottom",
    "C85_tensor",
    "C85_expand",
    "C85_quantiles",
    "C85_no_forecasters",
    "C85_reshape",
    "C85_rows_of_width",
    "C85_shape_at",
    "C85_squeeze_last",
    "C85_lift",
    "C85_trend_name",
    "C85_set_effects",
    "C85_unfitted",
    "C85_unknown_trend",
    "C85_unknown_method",
    "C85_training_dates",
    "C85_columns",
    "C85_columns_hierarchical",
    "C85_horizon",
    "C85_table",
    "C85_product",
    "C85_trend_single",
    "C85_trend_panel",
    "C85_not_fitted",
    "C85_build_trend",
    "C85_broadcast",
    "C85_len",
    "C85_stack_site",
    "C85_stack",
    "C85_mean",
    "C85_all_sites",
    "C85_scales",
    "C85_scaling",
    "C85_pattern",
    "C85_pattern_column",
    "C85_elementwise",
    "C85_samples_site",
    "C85_samples_axis",
    "C85_all_sites_samples"
   ],
   "note": "Full for built-in trends without feature transformer (C70 treats transformers); the hierarchical column claim excludes names that look like expanded columns. Arrays, tables and calls before a fit are in PropRaiseArrays.v; trends, broadcasting, stacked samples and component tables in PropRaiseMore.v; scales, column patterns, elementwise operations and tables of samples in PropRaiseScale.v."
  },
  {
   "property": "C86",
   "status": "proved",
   "theorems": [
    "C86_fit",
    "C86_forecast",
    "C86_frame"
   ],
   "note": "Library trends (piecewise with numbers for interval and range, flat), no feature transformer, exogenous data on the index of the target. The hierarchical fit is assumed to succeed; the converse is refuted by an example (C86_pattern_names). Broadcasting inside numpyro's plates is not modelled, so the size of the plate does not enter the density."
  },
  {
   "property": "C87",
   "status": "partial",
   "theorems": [
    "C87_parameters",
    "C87_site_names",
    "C87_posterior",
    "C87_map",
    "C87_flat_refuted"
   ],
   "note": "Full for Prophetverse and for HierarchicalProphet with one series or a piecewise trend. With the flat trend and several series the full statement is refuted (C87_flat_refuted): std_observation and corr_matrix have as many entries as the trend has rows, fit and forecast differ. What numpyro does with the posterior (runs the model to find its sites, keeps posterior values, a point guide) is a hypothesis, shown to be satisfiable."
  },
  {
   "property": "C88",
   "status": "proved",
   "theorems": [
    "C88_tensors"
   ],
   "note": "Full for date and period indexes."
  },
  {
   "property": "C89",
   "status": "partial",
   "theorems": [
    "C89_own_options",
    "C89_dimensions",
    "C89_zip",
    "C89_short_list_refuted"
   ],
   "note": "Full for lists of the right length; rejection of other lengths is refuted (C89_short_list_refuted)."
  },
  {
   "property": "C90",
   "status": "proved",
   "theorems": [
    "C90_same_forecasts",
    "C90_model",
    "C90_fit",
    "C90_samples",
    "C90_point",
    "C90_quantiles",
    "C90_all_sites",
    "C90_all_sites_samples"
   ],
   "note": "Full for both classes, as equalities between whole runs, errors included. Exact real arithmetic; the clock must move by a constant number of days (C90_months shows that this is needed)."
  },
  {
   "property": "C91",
   "status": "proved",
   "theorems": [
    "C91_fit",
    "C91_forecast",
    "C91_methods",
    "C91_components"
   ],
   "note": "Full for the class of problems in Spec/PanelSpec.v without feature transformer (with one: C92_total_fit, C92_total_panel, C92_total_panel_methods and C92_total_panel_components): C91_fit, C91_forecast and C91_methods; C91_components adds predict_all_sites and predict_all_sites_samples, for targets without totals of their own and an engine whose posterior names exactly the unobserved sample sites of the trained model. The flat trend and the Hill, log and lift effects are excluded because the code rejects or breaks on panels with them (C74, C85). One series is C86."
  },
  {
   "property": "C92",
   "status": "proved",
   "theorems": [
    "C92_fit",
    "C92_forecast",
    "C92_raises",
    "C92_total_fit",
    "C92_total_forecast",
    "C92_total_panel",
    "C92_total_panel_methods",
    "C92_total_panel_components",
    "C92_bare",
    "C92_identity",
    "C92_raises_forecast"
   ],
   "note": "Arbitrary transformers as oracles. For Prophetverse the trend must not be an effect object (it could read the untransformed table), except in C92_identity (a transformer returning its data). C92_bare covers a table without columns which HierarchicalProphet gets back for data without columns; one it gets back for data with columns is not covered."
  },
  {
   "property": "C93",
   "status": "partial",
   "theorems": [
    "C93_refuted",
    "C93_numbers_partial",
    "C93_cases_partial"
   ],
   "note": "Refuted: a series falling linearly to exactly 0 is accepted with initial rate -inf and offset NaN under the parameters of trend='logistic'. The partial theorems give the exact condition (start and end strictly between 0 and the capacity) and the stored pair in all five cases. Fewer than two dates are outside the model (fit_time stops with ValueError there, Python goes on with NaN)."
  },
  {
   "property": "C94",
   "status": "partial",
   "theorems": [
    "C94_days_partial",
    "C94_nested_partial",
    "C94_months_refuted"
   ],
   "note": "Holds for dates at equal distances (C94_days_partial, C94_nested_partial). Refuted for calendar months (C94_months_refuted): the unit of time is the mean distance of the observed dates, so each new month moves all changepoints but the first."
  },
  {
   "property": "C95",
   "status": "proved",
   "theorems": [
    "C95_fit",
    "C95_transform",
    "C95_independent",
    "C95_library"
   ],
   "note": "Model of subclasses with arbitrary methods (Custom.v). The training table needs a row for the statement on _transform: an effect fitted on a table without rows remembers no columns."
  },
  {
   "property": "C96",
   "status": "proved",
   "theorems": [
    "C96_calls",
    "C96_fresh"
   ],
   "note": "Calls are counted by instrumenting the classes, not the forecaster. The counts are about _fit_effects and _transform_effects; that fit and each forecast call the latter once is in Forecaster.v."
  },
  {
   "property": "C97",
   "status": "partial",
   "theorems": [
    "C97_mode",
    "C97_mean_partial",
    "C97_library",
    "C97_vector_effect_refuted",
    "C97_vector_trend_refuted"
   ],
   "note": "C97_mean_partial: trends that are not vectors, effects with a mode. C97_library covers all trends and effects of the library, and so justifies that Likelihood.v adds equal shapes only. Refuted for effects without a mode returning vectors, and for trends that are vectors, which BaseAdditiveOrMultiplicativeEffect.predict turns into columns while the mean keeps the vector."
  },
  {
   "property": "C98",
   "status": "proved",
   "theorems": [
    "C98_elsewhere",
    "C98_normal",
    "C98_gamma",
    "C98_negbinomial",
    "C98_hierarchical"
   ],
   "note": "C98_elsewhere: either class, any trend and likelihood. The expected observation (C98_normal, C98_gamma, C98_negbinomial, C98_hierarchical) is stated for flat and piecewise trends of one series and piecewise trends of several; for gamma and negative binomial where it is above the threshold of _to_positive. Both scenarios are evaluated with the same latent values; nothing is said about the random draws of an engine that sees two different models."
  },
  {
   "property": "C99",
   "status": "proved",
   "theorems": [
    "C99_fit",
    "C99_fails",
    "C99_isolated",
    "C99_samples",
    "C99_all_sites",
    "C99_point",
    "C99_times",
    "C99_recover",
    "C99_clone"
   ],
   "note": "sktime's own vectorisation of fit and predict is modelled from its documented behaviour; predict_all_sites_samples is not included."
  },
  {
   "property": "C100",
   "status": "proved",
   "theorems": [
    "C100_fit",
    "C100_predict",
    "C100_lift",
    "C100_parameters",
    "C100_silent"
   ],
   "note": "Densities of the distributions are an arbitrary function of parameters and value; numpyro's change of variables for constrained sites is not modelled. The distribution of the observations is the subject of C36 and C46. C100_silent is stated without a feature transformer; C92 relates fits and forecasts with one to those on the transformed data."
  },
  {
   "property": "C101",
   "status": "proved",
   "theorems": [
    "C101_fit",
    "C101_predict",
    "C101_convert",
    "C101_back"
   ],
   "note": "Stated without a feature transformer (a transformer sees the units). The values are real numbers: rounding of floats is not modelled. Priors are not converted, so the posteriors of the two models differ unless the priors of the unit parameters are changed accordingly."
  },
  {
   "property": "C102",
   "status": "proved",
   "theorems": [
    "C102_univariate",
    "C102_univariate_none",
    "C102_hierarchical",
    "C102_hierarchical_none",
    "C102_transformed"
   ],
   "note": "[covers] asks that X has one row per series and requested date, series after series, which is how sorted panels look; other dates may also be in X. C102_transformed covers feature transformers of the hierarchical class when the forecast is given columns; flat trends of panels are left out."
  },
  {
   "property": "C103",
   "status": "partial",
   "theorems": [
    "C103_univariate",
    "C103_hierarchical",
    "C103_named",
    "C103_count",
    "C103_original_partial",
    "C103_spline_partial",
    "C103_refuted",
    "C103_training",
    "C103_panel_training",
    "C103_priors",
    "C103_offset_raw",
    "C103_offset_line",
    "C103_capacity"
   ],
   "note": "Proved for the formula the code computes. The two formulas of the documentation are refuted on a concrete forecaster: the first has the indicator of the wrong changepoints and a wrong offset correction, the second has the bends one step later than the code. With the indicator of the passed changepoints and the correction -(kappa - 1) delta the first one holds (C103_original_partial); at whole steps, with knots one step earlier, the second one holds (C103_spline_partial)."
  },
  {
   "property": "C104",
   "status": "proved",
   "theorems": [
    "C104_univariate",
    "C104_hierarchical",
    "C104_transformed",
    "C104_without_columns",
    "C104_training",
    "C104_panel_training",
    "C104_documented",
    "C104_documented_priors"
   ],
   "note": "Single series in the univariate class (a univariate panel is fitted series by series, see the claims about panels) and panels in the hierarchical class with piecewise trend, with or without exogenous data and feature transformer; unshared columns are copied for every series and a seasonality has its own coefficients for every series. The Hill formula is stated for positive inputs and half maxima, and for input zero, where the code's guarded power gives the whole maximum effect instead of zero."
  },
  {
   "property": "C105",
   "status": "partial",
   "theorems": [
    "C105_training",
    "C105_forecast",
    "C105_panel_training",
    "C105_panel_forecast",
    "C105_link",
    "C105_link_refuted",
    "C105_counts_variance_refuted"
   ],
   "note": "Proved for both classes in training and forecast, with the distributions that the code has. Two documented details are refuted: below sums of about -100000 (in units of the scale) the mean is cut off at 1e-10, above phi, and the negative binomial's variance falls when sigma grows instead of being sigma^2. For panels the scale factor is stated as it is; that it does not give the intended covariance is C49. C105_training assumes that no feature transformer is configured if the trend is flat."
  },
  {
   "property": "C106",
   "status": "partial",
   "theorems": [
    "C106_columns",
    "C106_default",
    "C106_shared",
    "C106_open_partial",
    "C106_starts_with_partial",
    "C106_exact_refuted",
    "C106_labels_refuted"
   ],
   "note": "Which columns each effect receives is proved for all fits. The intended statement holds for shared columns and for starts_with; patterns without $ select all copies of what they match. It fails for exact(column) on an unshared column, which receives no copy while the copies go to the default effect (C106_exact_refuted), and for patterns which reach the series label in the copy's name (C106_labels_refuted). C106_columns, C106_default, C106_shared, C106_open_partial and C106_starts_with_partial are stated without a feature transformer; C92 relates fits and forecasts with one to those on the transformed data."
  },
  {
   "property": "C107",
   "status": "proved",
   "theorems": [
    "C107_same",
    "C107_order",
    "C107_failed",
    "C107_silent",
    "C107_without_columns",
    "C107_univariate",
    "C107_hierarchical",
    "C107_exact"
   ],
   "note": "Text of the messages is not modelled, only what they name. Turning warnings into errors is not modelled. C107_univariate, C107_hierarchical and C107_exact are stated without a feature transformer; C92 relates fits and forecasts with one to those on the transformed data."
  },
  {
   "property": "C108",
   "status": "partial",
   "theorems": [
    "C108_effects_partial",
    "C108_fit_partial",
    "C108_predict",
    "C108_order_refuted"
   ],
   "note": "Proved for frames whose columns are in alphabetical order; refuted otherwise, because the default effect gets its columns sorted (Index.difference) while patterns keep the order of X, so the same coefficients belong to other columns. C108_fit_partial is stated without a feature transformer; C92 relates fits and forecasts with one to those on the transformed data."
  },
  {
   "property": "C109",
   "status": "proved",
   "theorems": [
    "C109_fit",
    "C109_forecast",
    "C109_programs",
    "C109_unused",
    "C109_object"
   ],
   "note": "Two consequences worth knowing: a forecaster given a trend object ignores its own changepoint, offset and capacity options without notice (C109_object), and with trend=\"flat\" the option changepoint_prior_scale is the scale of the prior of the level, which its documentation does not mention."
  },
  {
   "property": "C110",
   "status": "proved",
   "theorems": [
    "C110_mcmc",
    "C110_map",
    "C110_panel_mcmc",
    "C110_panel_map"
   ],
   "note": "The panel theorems are stated for at least two series, trends with scalar priors (those built from options) and horizons in increasing order; C105 gives the distribution of the observations in each draw."
  },
  {
   "property": "C111",
   "status": "proved",
   "theorems": [
    "C111_add",
    "C111_remove",
    "C111_unmatched"
   ],
   "note": "Warnings differ (C107). Effects that take part without columns (Fourier terms, lift experiments) are outside the statement."
  },
  {
   "property": "C112",
   "status": "proved",
   "theorems": [
    "C112_univariate",
    "C112_flat",
    "C112_panel",
    "C112_transformed",
    "C112_without_columns"
   ],
   "note": "Composes C103 (trend), C104 (effects), C110 (draws) and the labelling and rescaling of the table. C112_flat is the version for flat trends of one series. C112_transformed covers panels with feature transformers and C112_without_columns panels without columns. Univariate panels (fitted series by series) and flat trends of panels are outside the statement. Success of predict_all_sites is a hypothesis here; C78_components proves it for well-posed single-series problems."
  },
  {
   "property": "C113",
   "status": "proved",
   "theorems": [
    "C113_forecast",
    "C113_error",
    "C113_univariate"
   ],
   "note": "Full. A series that is zero throughout keeps scale 1 in any units (C05_zero_series_refuted), so panels with such a series are excluded by the statement. Totals of the forecasts are sums of the series (C51). For Prophetverse on panels only point forecasts are labelled with the series (C58), and lift experiments are excluded."
  },
  {
   "property": "C114",
   "status": "proved",
   "theorems": [
    "C114_used",
    "C114_univariate",
    "C114_hierarchical",
    "C114_prefixes"
   ],
   "note": "Full, for fits that succeed. A new pattern has to be one the model can read, since an unreadable pattern fails. Which columns a pattern selects is C41, C95 and C106. C114_univariate and C114_hierarchical are stated without a feature transformer; C92 relates fits and forecasts with one to those on the transformed data."
  },
  {
   "property": "C115",
   "status": "proved",
   "theorems": [
    "C115_fit",
    "C115_predict",
    "C115_run",
    "C115_forecast",
    "C115_names"
   ],
   "note": "Full. That a sampler returns draws which correspond under the new names is a hypothesis of C115_forecast, since numpyro may use other random numbers for other names; C115_fit, C115_predict and C115_run need no such hypothesis. Names with slashes and names the library uses are excluded by the statement; see C41 for clashes."
  },
  {
   "property": "C116",
   "status": "proved",
   "theorems": [
    "C116_univariate",
    "C116_hierarchical",
    "C116_transformed"
   ],
   "note": "Generalises C102 to different exogenous data. One row per series and requested date is assumed ([covers]). C116_transformed covers feature transformers of the hierarchical class which return columns; flat trends of panels are left out."
  },
  {
   "property": "C117",
   "status": "proved",
   "theorems": [
    "C117_fit",
    "C117_predict",
    "C117_forecast",
    "C117_sites"
   ],
   "note": "One direction: a forecaster without experiments may fit where one with them fails (an experiment rejects panels). Experiments on effects without columns are left out: such an effect is skipped, the experiment around it is not."
  },
  {
   "property": "C118",
   "status": "partial",
   "theorems": [
    "C118_forecast_partial",
    "C118_hill_zero_refuted",
    "C118_panel",
    "C118_transformed"
   ],
   "note": "Partial because the full property is false: _exponent_safe replaces the power of zero by zero, so a Hill effect has its maximum at input zero and is strictly lower at every positive input (C118_hill_zero_refuted; with the normal likelihood the expected observation falls too). C118_forecast_partial covers everything else for single series, C118_panel for panels (linear effects and seasonalities, the only ones that fit on panels) and C118_transformed for panels with a feature transformer. A multiplicative effect needs a nonnegative trend."
  },
  {
   "property": "C119",
   "status": "partial",
   "theorems": [
    "C119_forecast",
    "C119_known_univariate",
    "C119_known_hierarchical",
    "C119_training_partial",
    "C119_refit_partial",
    "C119_order_refuted"
   ],
   "note": "Partial because the full property is false: the coefficients of an effect are numbered by the order of the columns it selects, so training data with reordered columns give models in which the same parameter belongs to another column (C119_order_refuted). Prediction has no such restriction (C119_forecast, with C119_known_univariate and C119_known_hierarchical saying which columns are known). Training is the same when every listed effect selects its columns in the same order (C119_training_partial, C119_refit_partial); the default effect sorts its columns and needs no hypothesis. C119_known_univariate, C119_known_hierarchical, C119_training_partial and C119_refit_partial are stated without a feature transformer; C92 relates fits and forecasts with one to those on the transformed data."
  },
  {
   "property": "C120",
   "status": "proved",
   "theorems": [
    "C120_forecast",
    "C120_panel",
    "C120_transformed"
   ],
   "note": "Proved for both classes (C120_forecast, C120_panel; with a feature transformer C120_transformed). The two forecasts may be one and the same. Additive effects and the normal likelihood give the exact difference of expected observations."
  },
  {
   "property": "C121",
   "status": "proved",
   "theorems": [
    "C121_forecast",
    "C121_saturated",
    "C121_panel",
    "C121_transformed",
    "C121_panel_saturated"
   ],
   "note": "Proved for both classes (C121_forecast, C121_panel; with a feature transformer C121_transformed), and for logistic trends of one series (C121_saturated) and of every series of a panel (C121_panel_saturated)."
  },
  {
   "property": "C122",
   "status": "proved",
   "theorems": [
    "C122_forecast",
    "C122_panel",
    "C122_transformed"
   ],
   "note": "Proved for the univariate class (C122_forecast) and for panels with piecewise trends, one row per series and date (C122_panel; with a feature transformer C122_transformed); the effects may be listed in another order and the forecasts may have different horizons."
  },
  {
   "property": "C123",
   "status": "proved",
   "theorems": [
    "C123_trend",
    "C123_panel_trend",
    "C123_beyond",
    "C123_forecast",
    "C123_panel",
    "C123_transformed"
   ],
   "note": "Proved for the trend of both classes (C123_trend, C123_panel_trend, C123_beyond) and for expected observations (C123_forecast, C123_panel; with a feature transformer C123_transformed)."
  }
 ]
}