{"id": "C01", "title": "Scaling and inverse scaling cancel", "statement": "For a continuous likelihood, multiplying the internally scaled training target back by the stored scale returns the target exactly, for a single series and for every series of a hierarchy (each with its own scale).", "quantifier": "every target frame (any number of series, levels, rows, values), every non-zero float scale and every automatically computed scale", "why_tests_cant": "Tests check a couple of frames; the property ranges over all values, zero series, and all ways of attaching a per-series scale to rows.", "anchors": ["src/prophetverse/sktime/base.py:_set_y_scales", "src/prophetverse/sktime/base.py:_scale_y", "src/prophetverse/sktime/base.py:_inv_scale_y"]}
{"id": "C02", "title": "Automatic scale normalises the target", "statement": "With scale=None, every internally scaled training value lies in [-1,1]; for each series that is not identically zero the bound 1 is attained in absolute value; an identically zero series of a hierarchy is left unchanged.", "quantifier": "every target frame", "why_tests_cant": "A numerical bound over all inputs and all partitions of rows into series.", "anchors": ["src/prophetverse/sktime/base.py:_set_y_scales", "src/prophetverse/sktime/base.py:_scale_y"]}
{"id": "C03", "title": "Any real-valued series can be scaled", "statement": "Fitting never fails in the scaling step: for every univariate target (including an all-zero one) and every positive user supplied scale (float or int), the scaled target is produced.", "quantifier": "every target frame and every scale argument", "why_tests_cant": "Depends on a Python type test (float vs int) that only matters on inputs such as the all-zero series.", "anchors": ["src/prophetverse/sktime/base.py:_set_y_scales", "src/prophetverse/sktime/base.py:_scale_y"]}
{"id": "C04", "title": "Count likelihoods are modelled in original units", "statement": "With likelihood='negbinomial' the target handed to the model and the samples returned by predict_samples are unscaled, and the mean of the observation distribution is the stored scale times the positive part of trend plus effects.", "quantifier": "every target, scale, trend and effect value", "why_tests_cant": "A statement about units for all values.", "anchors": ["src/prophetverse/sktime/univariate.py:_likelihood_is_discrete", "src/prophetverse/sktime/base.py:_scale_y", "src/prophetverse/sktime/base.py:_inv_scale_y", "src/prophetverse/models.py:univariate_negbinomial_model"]}
{"id": "C05", "title": "Forecasts are equivariant under a change of units of the target", "statement": "With automatic scaling and a continuous likelihood, fitting on c*y (c>0) and predicting gives exactly c times the samples, point forecasts, quantiles and site values obtained from y, whatever the inference engine computes from its inputs (results of lift experiments, which are in units of the target, being multiplied by c too). The same holds after any history of fit, update and predict calls.", "quantifier": "every target, c>0, exogenous frame, horizon, and every (deterministic) inference engine", "why_tests_cant": "A relational (two-run) property over all inputs and over an arbitrary inference procedure.", "anchors": ["src/prophetverse/sktime/base.py:_fit", "src/prophetverse/sktime/base.py:predict_samples", "src/prophetverse/sktime/base.py:_predict", "src/prophetverse/sktime/univariate.py:_get_fit_data", "src/prophetverse/sktime/univariate.py:_get_predict_data"]}
{"id": "C06", "title": "Time is measured in steps from the start of training", "statement": "After fitting on a strictly increasing time index with at least two entries, the scaled time of the first training time is 0 and of the last is n-1; on a regularly spaced index the scaled time of the k-th step (past or future) is exactly k; scaled time is strictly increasing in real time.", "quantifier": "every strictly increasing time index of length >= 2 and every forecast time", "why_tests_cant": "All index lengths, spacings and horizons.", "anchors": ["src/prophetverse/effects/trend/base.py:_fit", "src/prophetverse/effects/trend/base.py:_index_to_scaled_timearray", "src/prophetverse/utils/frame_to_array.py:convert_index_to_days_since_epoch"]}
{"id": "C07", "title": "Scaled time does not depend on the calendar origin or the time unit", "statement": "Shifting all (training and forecast) times by the same amount, or stretching them by the same positive factor, leaves every scaled time unchanged.", "quantifier": "every time index of length >= 2, every shift and every positive factor", "why_tests_cant": "Two-run property over all indexes.", "anchors": ["src/prophetverse/effects/trend/base.py:_fit", "src/prophetverse/effects/trend/base.py:_index_to_scaled_timearray"]}
{"id": "C08", "title": "Conversion of timestamps to days", "statement": "Timestamps that are whole seconds are converted exactly to seconds/86400 days, so order and differences are preserved; in general the conversion never reverses order. Sub-second timestamps within the same second are merged, so it is not injective in general.", "quantifier": "every list of integer nanosecond timestamps (before or after the epoch)", "why_tests_cant": "All integers, including negative ones where floor division matters.", "anchors": ["src/prophetverse/utils/frame_to_array.py:convert_index_to_days_since_epoch"]}
{"id": "C09", "title": "Changepoints form the complete grid below the range limit", "statement": "With interval I>0 the changepoints are exactly the non-negative multiples of I strictly below the limit, in increasing order without repetition, and there are ceil(limit/I) of them.", "quantifier": "every time array, interval > 0 and range", "why_tests_cant": "All real limits and intervals, boundary cases included.", "anchors": ["src/prophetverse/effects/trend/piecewise.py:_get_changepoint_timeindexes"]}
{"id": "C10", "title": "changepoint_range means what the documentation says", "statement": "A float range r in (0,1) limits changepoints to the first fraction r of history; r>1 means the first r time points; r<0 means all but the last |r| time points; r=1.0 (documented as inclusive) means the whole history; no changepoint lies after the end of the training data.", "quantifier": "every n-point history, every range", "why_tests_cant": "All ranges, the boundary value 1.0 in particular.", "anchors": ["src/prophetverse/effects/trend/piecewise.py:_get_changepoint_timeindexes", "src/prophetverse/sktime/multivariate.py:HierarchicalProphet docstring"]}
{"id": "C11", "title": "A changepoint has no influence before it happens", "statement": "On a regular grid (integer scaled times t>=0 and integer changepoints c) the design matrix entry is max(0, t-c+1): zero before the changepoint and growing by one per step from it. For any real t>=c>=1 the entry is t-c+1 and for t<c it is 0.", "quantifier": "every time and changepoint", "why_tests_cant": "All reals/integers.", "anchors": ["src/prophetverse/effects/trend/piecewise.py:_get_changepoint_matrix"]}
{"id": "C12", "title": "The piecewise linear trend is continuous", "statement": "The trend is a continuous function of time: in a window around a changepoint, values at nearby times are close for fixed coefficients (documented as a piecewise linear function of (t - changepoint)+).", "quantifier": "every coefficient vector, changepoint grid and pair of times", "why_tests_cant": "A statement about all pairs of real times; data on a regular grid never shows the jump.", "anchors": ["src/prophetverse/effects/trend/piecewise.py:_get_changepoint_matrix", "src/prophetverse/effects/trend/piecewise.py:PiecewiseLinearTrend._predict"]}
{"id": "C13", "title": "Changepoint coefficients of a series affect only that series", "statement": "In a multi-series piecewise linear trend, the trend of series i at time t is offset_i plus the sum over its own changepoints of coefficient times design entry; coefficients of other series have no influence.", "quantifier": "every number of series, every (possibly different) number of changepoints per series, every coefficient vector", "why_tests_cant": "Block indexing over arbitrary many blocks.", "anchors": ["src/prophetverse/effects/trend/piecewise.py:_get_multivariate_changepoint_matrix", "src/prophetverse/effects/trend/piecewise.py:_predict", "src/prophetverse/effects/trend/piecewise.py:n_changepoint_per_series"]}
{"id": "C14", "title": "A trend without changepoints is rejected", "statement": "Fitting a piecewise trend raises ValueError if and only if some series would get no changepoint, i.e. the limit derived from changepoint_range is not positive; otherwise every series has a changepoint at time 0.", "quantifier": "every history, positive interval(s) and range(s), any number of series", "why_tests_cant": "All combinations of per-series settings.", "anchors": ["src/prophetverse/effects/trend/piecewise.py:_setup_changepoints"]}
{"id": "C15", "title": "The suggested initial growth rate is used as prior location", "statement": "The prior location of the first changepoint coefficient of each series is the suggested global rate of that series, and zero for its other changepoints.", "quantifier": "every series count, changepoint counts and suggested rates", "why_tests_cant": "The discarded functional update only shows when the prior vector is compared with the rate for non-zero rates.", "anchors": ["src/prophetverse/effects/trend/piecewise.py:_get_changepoint_prior_vectors"]}
{"id": "C16", "title": "Suggested linear rate and offset describe the line through the endpoints", "statement": "The suggested global rate and offset of the linear trend satisfy offset + rate*t0 = first value and offset + rate*t1 = last value of each series.", "quantifier": "every series and time index", "why_tests_cant": "All values; sign errors are invisible if rate is not used or series are flat.", "anchors": ["src/prophetverse/effects/trend/piecewise.py:PiecewiseLinearTrend._suggest_global_trend_and_offset"]}
{"id": "C17", "title": "Suggested logistic rate and offset interpolate the endpoints", "statement": "For series values strictly between 0 and the capacity, the suggested rate k and offset m satisfy capacity/(1+exp(-(k*t+m))) = y at both the first and the last training time, and they are the only such pair.", "quantifier": "every capacity C, end values 0<y0,y1<C, times t0<t1, any number of series", "why_tests_cant": "An analytic identity over all reals.", "anchors": ["src/prophetverse/effects/trend/piecewise.py:_suggest_logistic_rate_and_offset"]}
{"id": "C18", "title": "Positive data can be fitted with a logistic trend", "statement": "Fitting the logistic trend to strictly positive data does not fail in the suggestion of the initial values.", "quantifier": "every strictly positive series", "why_tests_cant": "Fails only for data whose least squares line becomes negative, which random test data rarely shows.", "anchors": ["src/prophetverse/effects/trend/piecewise.py:_setup_changepoint_prior_vectors", "src/prophetverse/effects/trend/piecewise.py:PiecewiseLogisticTrend._suggest_global_trend_and_offset", "src/prophetverse/effects/trend/piecewise.py:_suggest_logistic_rate_and_offset"]}
{"id": "C19", "title": "Logistic suggestion for one series does not depend on other series", "statement": "With a given capacity, the suggested rate and offset of a series are functions of that series alone.", "quantifier": "every panel of series", "why_tests_cant": "Two-run property; only broken by a series starting exactly at zero.", "anchors": ["src/prophetverse/effects/trend/piecewise.py:_suggest_logistic_rate_and_offset"]}
{"id": "C20", "title": "The logistic trend stays strictly between 0 and the capacity", "statement": "For every positive capacity and every value of the coefficients, the logistic trend is strictly positive and strictly below the capacity, and is an increasing function of the underlying linear trend.", "quantifier": "every capacity > 0, coefficients, times, series", "why_tests_cant": "All reals.", "anchors": ["src/prophetverse/effects/trend/piecewise.py:PiecewiseLogisticTrend._predict"]}
{"id": "C21", "title": "Flat trend is constant and its prior is centred at the mean of the series", "statement": "The flat trend takes the same value at all times of the horizon; its Gamma prior has mean equal to the (scaled) training mean and standard deviation equal to changepoint_prior_scale whenever the training mean is positive, and has valid parameters for every training series.", "quantifier": "every training series, prior scale and horizon", "why_tests_cant": "All series, in particular those with non-positive mean.", "anchors": ["src/prophetverse/effects/trend/flat.py:FlatTrend"]}
{"id": "C22", "title": "After the last changepoint the trend extrapolates linearly", "statement": "For times at or after every changepoint the piecewise linear trend is affine with slope equal to the sum of all changepoint coefficients of the series, and between two consecutive changepoints on the grid the slope is the sum of the coefficients of the earlier ones.", "quantifier": "every coefficient vector, grid and horizon length", "why_tests_cant": "All horizons.", "anchors": ["src/prophetverse/effects/trend/piecewise.py:_get_changepoint_matrix", "src/prophetverse/effects/trend/piecewise.py:_predict"]}
{"id": "C23", "title": "Using an effect before fitting it raises ValueError", "statement": "Calling transform on any effect that has not been fitted raises ValueError.", "quantifier": "every effect class and every argument", "why_tests_cant": "Per-class initialisation order.", "anchors": ["src/prophetverse/effects/base.py:BaseEffect.transform", "src/prophetverse/effects/fourier.py:LinearFourierSeasonality.__init__"]}
{"id": "C24", "title": "An effect is skipped exactly when it has no columns and says so", "statement": "An effect takes part in the model unless its fitted column list is empty and its class skips on no match; skipped effects contribute nothing to the forecast; effects that do not skip (trend, Fourier seasonality, lift) take part even without columns.", "quantifier": "every effect list, column assignment and data", "why_tests_cant": "All combinations of effects and columns.", "anchors": ["src/prophetverse/effects/base.py:should_skip_predict", "src/prophetverse/sktime/base.py:_transform_effects", "src/prophetverse/sktime/base.py:non_skipped_exogenous_effect", "src/prophetverse/models.py:_compute_mean_univariate"]}
{"id": "C25", "title": "An effect sees only the rows of the horizon and its own columns, in training order", "statement": "The data an effect receives depends only on the rows of X whose time is in the horizon and on the columns it was fitted with, in the order of fitting; adding rows outside the horizon, adding columns or permuting the columns of X changes nothing.", "quantifier": "every frame, horizon and column order", "why_tests_cant": "Metamorphic property over all frames.", "anchors": ["src/prophetverse/effects/base.py:BaseEffect.transform", "src/prophetverse/effects/base.py:BaseEffect.fit", "src/prophetverse/sktime/base.py:_transform_effects"]}
{"id": "C26", "title": "Additive and multiplicative modes", "statement": "In additive mode the contribution of an effect is its raw value; in multiplicative mode it is the raw value times the trend, pointwise, with the shape of the trend; any other mode is rejected at construction.", "quantifier": "every raw effect, trend and mode", "why_tests_cant": "All shapes and values.", "anchors": ["src/prophetverse/effects/base.py:BaseAdditiveOrMultiplicativeEffect"]}
{"id": "C27", "title": "Linear effect is linear", "statement": "The raw linear effect of a row is the dot product of its features with the coefficients; it is additive and homogeneous in the features, zero for zero features, and unchanged when columns and coefficients are permuted together.", "quantifier": "every data array (2 or 3 dimensional) and coefficient vector", "why_tests_cant": "All arrays.", "anchors": ["src/prophetverse/effects/linear.py:LinearEffect._predict", "src/prophetverse/utils/algebric_operations.py:matrix_multiplication"]}
{"id": "C28", "title": "Log effect", "statement": "The log effect is scale*log(rate*x+1) for non-negative input and rate, is zero at zero input, and is non-decreasing in x for non-negative scale and rate (for all real x).", "quantifier": "every input and every parameter draw", "why_tests_cant": "All reals.", "anchors": ["src/prophetverse/effects/log.py:LogEffect._predict"]}
{"id": "C29", "title": "Hill effect saturates", "statement": "On positive inputs with positive half-max, slope and max-effect, the Hill effect is strictly between 0 and the max effect, equals half of it at half-max, is non-decreasing and tends to the max effect.", "quantifier": "every positive input and every positive parameter draw", "why_tests_cant": "All reals.", "anchors": ["src/prophetverse/effects/hill.py:HillEffect._predict", "src/prophetverse/utils/algebric_operations.py:_exponent_safe"]}
{"id": "C30", "title": "Zero input has no Hill effect", "statement": "A Hill effect is zero when its input is zero, and is monotone on non-negative inputs.", "quantifier": "every parameter draw", "why_tests_cant": "The value at exactly 0 goes through a special case (safe exponentiation).", "anchors": ["src/prophetverse/effects/hill.py:HillEffect._predict", "src/prophetverse/utils/algebric_operations.py:_exponent_safe"]}
{"id": "C31", "title": "Wrapping an effect in a lift experiment does not change its contribution", "statement": "LiftExperimentLikelihood returns exactly the value of the wrapped effect; it adds a likelihood term exactly at the horizon dates with a recorded lift, comparing the effect with the lift divided by the scale of the series.", "quantifier": "every wrapped effect, lift table, horizon and scale", "why_tests_cant": "All tables with arbitrary missing dates.", "anchors": ["src/prophetverse/effects/lift_experiment.py:LiftExperimentLikelihood"]}
{"id": "C32", "title": "Fourier seasonality is periodic", "statement": "With an additive LinearFourierSeasonality of integer period p, the seasonal contribution at a time p steps later is the same, for every coefficient draw.", "quantifier": "every coefficient draw, number of terms, time", "why_tests_cant": "All times and draws.", "anchors": ["src/prophetverse/effects/fourier.py:LinearFourierSeasonality"]}
{"id": "C33", "title": "Refitting an effect forgets the previous fit", "statement": "After a successful fit, the behaviour of an effect depends only on the data of that fit, not on earlier fits of the same object.", "quantifier": "every history of fits, for every effect class", "why_tests_cant": "Property of histories.", "anchors": ["src/prophetverse/effects/base.py:BaseEffect.fit", "src/prophetverse/effects/fourier.py:_fit", "src/prophetverse/effects/trend/piecewise.py:_fit", "src/prophetverse/effects/lift_experiment.py:fit"]}
{"id": "C34", "title": "Univariate-only effects reject hierarchical data", "statement": "Fitting an effect whose class does not support multivariate data on a frame with series levels raises ValueError and leaves the effect unfitted; supporting classes accept it.", "quantifier": "every effect class and frame", "why_tests_cant": "All classes and frames.", "anchors": ["src/prophetverse/effects/base.py:BaseEffect.fit"]}
{"id": "C35", "title": "Log and Hill effects need exactly one column per value", "statement": "If the data of a Log or Hill effect does not have as many values as the trend (e.g. two columns), the forecast fails instead of silently dropping or mixing columns.", "quantifier": "every data shape", "why_tests_cant": "All shapes.", "anchors": ["src/prophetverse/effects/base.py:BaseAdditiveOrMultiplicativeEffect.predict"]}
{"id": "C36", "title": "The mean is trend plus the sum of the effects", "statement": "For every draw of the parameters, the location of the forecast is the trend plus the sum of all participating effects, each evaluated with its own data and seeing exactly the trend and the effects before it in the list.", "quantifier": "every list of effects (any functions), data and parameters", "why_tests_cant": "Arbitrary lists and arbitrary effect functions.", "anchors": ["src/prophetverse/models.py:_compute_mean_univariate"]}
{"id": "C37", "title": "The order of trend-only effects is irrelevant", "statement": "If effects depend on previously computed components only through the trend (all shipped effects), permuting the list of effects does not change the forecast location.", "quantifier": "every list of effects and every permutation", "why_tests_cant": "All permutations.", "anchors": ["src/prophetverse/models.py:_compute_mean_univariate", "src/prophetverse/effects/base.py:BaseAdditiveOrMultiplicativeEffect.predict"]}
{"id": "C38", "title": "Every participating effect finds its data", "statement": "After a successful fit, evaluating the model for fitting or prediction never fails to look up the data of an effect: the prepared data has exactly the participating effects as keys.", "quantifier": "every list of effects (names may repeat), columns and data", "why_tests_cant": "All lists.", "anchors": ["src/prophetverse/sktime/base.py:_transform_effects", "src/prophetverse/sktime/base.py:non_skipped_exogenous_effect", "src/prophetverse/models.py:_compute_mean_univariate"]}
{"id": "C39", "title": "Column-free effects are applied without exogenous data", "statement": "With X=None and no feature transformer, effects that need no columns are still part of the model during fit and prediction.", "quantifier": "every effect list", "why_tests_cant": "Relies on a truthiness quirk of the exogenous flag.", "anchors": ["src/prophetverse/sktime/univariate.py:_get_fit_data", "src/prophetverse/sktime/univariate.py:_get_predict_data"]}
{"id": "C40", "title": "Every exogenous column is used", "statement": "Each column of X goes to every effect whose pattern matches it, and to the default effect if and only if no pattern matches it; the default effect exists if and only if there is such a column.", "quantifier": "every frame and list of patterns", "why_tests_cant": "All column sets and patterns.", "anchors": ["src/prophetverse/sktime/base.py:_fit_effects", "src/prophetverse/sktime/base.py:_match_columns"]}
{"id": "C41", "title": "Every listed effect with columns contributes to the forecast", "statement": "Each entry of exogenous_effects whose pattern matches a column contributes a term to the forecast location.", "quantifier": "every list of effects", "why_tests_cant": "Broken only by repeated names (or the reserved default name), which overwrite silently.", "anchors": ["src/prophetverse/sktime/base.py:non_skipped_exogenous_effect", "src/prophetverse/sktime/base.py:_transform_effects"]}
{"id": "C42", "title": "Pattern helpers select the columns they name", "statement": "exact(s) selects exactly the column named s, starts_with(ps) selects exactly the columns starting with one of ps, and no_input_columns selects no column with a non-empty name.", "quantifier": "every string, list of prefixes and column name", "why_tests_cant": "All strings, in particular those with regular expression metacharacters.", "anchors": ["src/prophetverse/utils/regex.py:exact", "src/prophetverse/utils/regex.py:starts_with", "src/prophetverse/utils/regex.py:no_input_columns", "src/prophetverse/sktime/base.py:_match_columns"]}
{"id": "C43", "title": "Shared features keep one coefficient for all series", "statement": "In HierarchicalProphet a column listed in shared_features is not expanded per series and every other column is.", "quantifier": "every set of column names and shared names", "why_tests_cant": "Depends on names being prefixes of one another or containing metacharacters.", "anchors": ["src/prophetverse/sktime/multivariate.py:_get_fit_data", "src/prophetverse/sktime/_expand_column_per_level.py:ExpandColumnPerLevel.fit"]}
{"id": "C44", "title": "Expansion per series isolates series", "statement": "ExpandColumnPerLevel replaces each matched column by one column per series which equals the original column on the rows of that series (missing values become 0) and is 0 on all others; other columns and the index are unchanged.", "quantifier": "every frame with distinct generated column names", "why_tests_cant": "All frames.", "anchors": ["src/prophetverse/sktime/_expand_column_per_level.py:ExpandColumnPerLevel.transform", "src/prophetverse/sktime/_expand_column_per_level.py:get_col_name"]}
{"id": "C45", "title": "Expanded column names identify column and series", "statement": "Distinct (column, series) pairs get distinct expanded column names.", "quantifier": "every set of columns and series identifiers", "why_tests_cant": "Needs identifiers containing '-' or columns containing '_dup_'.", "anchors": ["src/prophetverse/sktime/_expand_column_per_level.py:get_col_name"]}
{"id": "C46", "title": "Positive likelihoods always get a positive location", "statement": "For the gamma and negative binomial likelihoods the location is at least 1e-10 whatever the trend and effects are, equals them whenever they are at least 1e-5, and is a non-decreasing continuous function of them.", "quantifier": "every real location", "why_tests_cant": "All reals.", "anchors": ["src/prophetverse/models.py:_to_positive", "src/prophetverse/models.py:univariate_gamma_model", "src/prophetverse/models.py:univariate_negbinomial_model"]}
{"id": "C47", "title": "Gamma likelihood is parametrised by mean and standard deviation", "statement": "GammaReparametrized(loc, scale) has valid concentration and rate, mean loc and variance scale^2, and distinct (loc, scale) give distinct distributions, for all positive loc and scale.", "quantifier": "every positive loc and scale", "why_tests_cant": "All reals.", "anchors": ["src/prophetverse/distributions.py:GammaReparametrized"]}
{"id": "C48", "title": "Observation distributions are valid for every draw", "statement": "For every value of trend and effects and every positive noise draw, the parameters of the normal, gamma and negative binomial observation distributions are within their domain, one distribution per time point.", "quantifier": "every draw", "why_tests_cant": "All reals.", "anchors": ["src/prophetverse/models.py:univariate_model", "src/prophetverse/models.py:univariate_gamma_model", "src/prophetverse/models.py:univariate_negbinomial_model"]}
{"id": "C49", "title": "Multivariate noise has the sampled standard deviations and correlation", "statement": "In the hierarchical model, the covariance of the observation noise is D*L*L'*D with D the diagonal of the sampled standard deviations and L the sampled Cholesky factor of the correlation matrix; in particular each series has its sampled standard deviation.", "quantifier": "every draw, any number of series", "why_tests_cant": "A matrix identity over all draws.", "anchors": ["src/prophetverse/models.py:multivariate_model"]}
{"id": "C50", "title": "Bottom series of an aggregated hierarchy are the original series", "statement": "Selecting the bottom series after aggregation returns exactly the original rows, and selection is idempotent and order preserving.", "quantifier": "every hierarchy (levels, series, rows) without the reserved name", "why_tests_cant": "All hierarchies.", "anchors": ["src/prophetverse/utils/multiindex.py:loc_bottom_series", "src/prophetverse/utils/multiindex.py:get_bottom_series_idx", "src/prophetverse/utils/multiindex.py:get_multiindex_loc"]}
{"id": "C51", "title": "Hierarchical forecasts are coherent", "statement": "In HierarchicalProphet each aggregate row of predict_samples (for every sample) and of predict equals the sum of the bottom rows below it at the same time.", "quantifier": "every hierarchy, sample count and values", "why_tests_cant": "All hierarchies.", "anchors": ["src/prophetverse/sktime/multivariate.py:predict_samples", "src/prophetverse/sktime/base.py:_predict"]}
{"id": "C52", "title": "Rows of predict_samples carry the right series and time labels", "statement": "The row of predict_samples labelled (series i, time t) contains exactly the draws of the observation site for series i at time t, for one or many series.", "quantifier": "every number of series, times and samples", "why_tests_cant": "Array layout for all shapes.", "anchors": ["src/prophetverse/sktime/base.py:predict_samples", "src/prophetverse/sktime/base.py:periodindex_to_multiindex", "src/prophetverse/sktime/multivariate.py:_filter_series_tuples"]}
{"id": "C53", "title": "Rows of predict_all_sites carry the right series and time labels", "statement": "The row of predict_all_sites labelled (series i, time t) contains, for every site, the mean over draws of that site for series i at time t.", "quantifier": "every number of series, times and samples", "why_tests_cant": "A layout error needs at least two series and two times with different values.", "anchors": ["src/prophetverse/sktime/base.py:predict_all_sites", "src/prophetverse/sktime/base.py:predict_all_sites_samples", "src/prophetverse/models.py:multivariate_model"]}
{"id": "C54", "title": "predict_all_sites_samples and predict_all_sites agree", "statement": "Averaging the samples of predict_all_sites_samples gives the values of predict_all_sites.", "quantifier": "every fitted forecaster and horizon", "why_tests_cant": "Units differ unless the scale is 1.", "anchors": ["src/prophetverse/sktime/base.py:predict_all_sites", "src/prophetverse/sktime/base.py:predict_all_sites_samples"]}
{"id": "C55", "title": "Re-indexing keeps the set of series", "statement": "reindex_time_series returns one row per existing series and new time and no other rows.", "quantifier": "every hierarchy and time index", "why_tests_cant": "Test hierarchies are full crossings; an unbalanced hierarchy is needed.", "anchors": ["src/prophetverse/utils/multiindex.py:reindex_time_series", "src/prophetverse/sktime/multivariate.py:_get_predict_data"]}
{"id": "C56", "title": "Frame to tensor conversion", "statement": "series_to_tensor returns, for every series in order of first appearance, its rows in frame order; it raises ValueError if series differ in length; a frame without series levels gives a single series.", "quantifier": "every frame", "why_tests_cant": "All frames.", "anchors": ["src/prophetverse/utils/frame_to_array.py:series_to_tensor", "src/prophetverse/utils/frame_to_array.py:series_to_tensor_or_array", "src/prophetverse/utils/multiindex.py:iterate_all_series"]}
{"id": "C57", "title": "Exogenous rows are matched to the target's series", "statement": "In HierarchicalProphet the exogenous data used for series i are the rows of X labelled with series i, whatever the order of series in X.", "quantifier": "every order of series in X", "why_tests_cant": "Tests build X in the same order as y.", "anchors": ["src/prophetverse/sktime/multivariate.py:_get_fit_data", "src/prophetverse/utils/frame_to_array.py:series_to_tensor"]}
{"id": "C58", "title": "Forecasting many series with a univariate model keeps series labels", "statement": "When a univariate forecaster is fitted on a panel, every series is forecast with its own rows of X only and the rows of predict_samples / predict_all_sites identify the series.", "quantifier": "every panel", "why_tests_cant": "All panels; values alone do not show the missing labels.", "anchors": ["src/prophetverse/sktime/base.py:_vectorize_predict_method"]}
{"id": "C59", "title": "Point forecast is the mean of the samples", "statement": "predict returns, for each row of predict_samples, the mean of its samples; it lies between the smallest and the largest sample.", "quantifier": "every sample frame", "why_tests_cant": "All values.", "anchors": ["src/prophetverse/sktime/base.py:_predict"]}
{"id": "C60", "title": "Quantile forecasts do not cross", "statement": "predict_quantiles is non-decreasing in alpha for every row, lies between the smallest and largest sample, equals them at alpha 0 and 1, does not depend on the order of samples and scales with the target; columns are in the order of alpha.", "quantifier": "every sample frame and list of levels in [0,1]", "why_tests_cant": "All sample sets and levels.", "anchors": ["src/prophetverse/sktime/base.py:_predict_quantiles"]}
{"id": "C61", "title": "Forecast rows are labelled with the times they were computed for", "statement": "After any sequence of fit, update and predict calls, the times labelling the rows of a forecast are the times at which trend and effects were evaluated.", "quantifier": "every history of fit, update (with or without refitting) and predict, every horizon", "why_tests_cant": "History property; needs update without refit and a relative horizon.", "anchors": ["src/prophetverse/sktime/base.py:fh_to_index", "src/prophetverse/sktime/multivariate.py:_get_predict_data", "src/prophetverse/sktime/univariate.py:_get_predict_data"]}
{"id": "C62", "title": "Predicting does not change the forecaster", "statement": "Any number of predict calls with any arguments leaves later predictions unchanged, and equal calls return equal results.", "quantifier": "every history of predict calls", "why_tests_cant": "History property.", "anchors": ["src/prophetverse/sktime/base.py:predict_samples", "src/prophetverse/engine.py:predict"]}
{"id": "C63", "title": "Default runs are reproducible", "statement": "With rng_key=None two forecasters with equal parameters and data produce equal forecasts; the key used is fixed.", "quantifier": "every configuration and data", "why_tests_cant": "Two-run property over an arbitrary engine.", "anchors": ["src/prophetverse/sktime/base.py:_fit", "src/prophetverse/engine.py:InferenceEngine.__init__"]}
{"id": "C64", "title": "Constructor accepts exactly the documented hyperparameters", "statement": "Construction succeeds iff all positive hyperparameters are positive, trend is one of the four names or an effect and the likelihood is known; otherwise ValueError. After construction the trend model can always be built.", "quantifier": "every hyperparameter combination", "why_tests_cant": "All combinations, NaN included.", "anchors": ["src/prophetverse/sktime/base.py:_validate_hyperparams", "src/prophetverse/sktime/univariate.py:_validate_hyperparams", "src/prophetverse/sktime/multivariate.py:_validate_hyperparams", "src/prophetverse/sktime/base.py:_get_trend_model"]}
{"id": "C65", "title": "Fitting does not modify the objects passed by the user", "statement": "Fitting a forecaster does not change the effect, trend and transformer objects passed as parameters, so two forecasters sharing such objects do not influence each other.", "quantifier": "every interleaving of fits and predictions of forecasters sharing objects", "why_tests_cant": "Aliasing over histories.", "anchors": ["src/prophetverse/sktime/base.py:_fit_effects", "src/prophetverse/sktime/base.py:_get_trend_model", "src/prophetverse/sktime/univariate.py:_get_fit_data"]}
{"id": "C66", "title": "A diverged optimisation is reported", "statement": "MAP inference raises an error iff the final loss is NaN and in that case provides no posterior; a run that ends with a finite loss succeeds.", "quantifier": "every sequence of losses", "why_tests_cant": "All loss sequences, including NaN in the middle.", "anchors": ["src/prophetverse/engine.py:MAPInferenceEngine.infer", "src/prophetverse/engine.py:raise_error_if_nan_loss"]}
{"id": "C67", "title": "Number of returned samples", "statement": "predict_samples has 1000 columns for MAP and mcmc_samples*mcmc_chains for MCMC, for every horizon and number of series.", "quantifier": "every configuration", "why_tests_cant": "All configurations.", "anchors": ["src/prophetverse/sktime/base.py:_fit", "src/prophetverse/engine.py:MAPInferenceEngine", "src/prophetverse/engine.py:MCMCInferenceEngine", "src/prophetverse/sktime/base.py:predict_samples"]}
{"id": "C68", "title": "seasonal_transformer settings", "statement": "True means 10 yearly / 3 weekly terms, an integer n means n terms, False or 0 leaves the seasonality out, anything else raises ValueError; yearly comes before weekly and periods and terms have equal length.", "quantifier": "every pair of arguments", "why_tests_cant": "All argument types.", "anchors": ["src/prophetverse/sktime/seasonality.py:seasonal_transformer"]}
{"id": "C69", "title": "Setting effects through the meta-estimator interface keeps names and patterns", "statement": "Reading the effects as (name, effect) pairs and writing back an equally long list keeps every pattern at its position.", "quantifier": "every effect list", "why_tests_cant": "All lists.", "anchors": ["src/prophetverse/sktime/base.py:_exogenous_effects"]}
{"id": "C70", "title": "A feature transformer may drop columns", "statement": "Prophetverse can be fitted with any feature transformer, in particular one which does not keep the original columns of X.", "quantifier": "every transformer and frame", "why_tests_cant": "Depends on which columns the transformer drops.", "anchors": ["src/prophetverse/sktime/univariate.py:_get_fit_data", "src/prophetverse/effects/base.py:BaseEffect.fit", "src/prophetverse/effects/base.py:BaseEffect.transform"]}
{"id": "C71", "title": "Effects own their parameters", "statement": "Two effects with different names never share a parameter site, and for effect names that contain no '/' and are not reserved names all site names of a model are distinct.", "quantifier": "every list of effect names", "why_tests_cant": "All names.", "anchors": ["src/prophetverse/models.py:_compute_mean_univariate"]}
{"id": "C72", "title": "Successful hierarchical prediction means complete exogenous data", "statement": "If HierarchicalProphet prediction with exogenous effects succeeds, then every series has exactly one row for every date of the horizon.", "quantifier": "every exogenous frame and horizon", "why_tests_cant": "All patterns of missing rows.", "anchors": ["src/prophetverse/sktime/multivariate.py:_get_predict_data", "src/prophetverse/effects/base.py:transform", "src/prophetverse/utils/frame_to_array.py:series_to_tensor", "src/prophetverse/effects/base.py:BaseAdditiveOrMultiplicativeEffect.predict"]}
{"id": "C73", "title": "Fitting again forgets earlier calls", "statement": "Fitting a forecaster that was already fitted, updated or used for predictions gives the same result and the same forecaster as fitting a new forecaster, and update with update_params=True is the same as fitting a new forecaster on all data seen since the last fit.", "quantifier": "every history of fit, update and predict calls, including failing ones, every configuration and data", "why_tests_cant": "All histories of calls.", "anchors": ["src/prophetverse/sktime/base.py:BaseBayesianForecaster._fit", "src/prophetverse/sktime/base.py:BaseProphetForecaster._fit_effects", "src/prophetverse/sktime/univariate.py:_get_fit_data", "src/prophetverse/sktime/multivariate.py:_get_fit_data"]}
{"id": "C74", "title": "Observations and their location have the same shape", "statement": "In every run of the model built by fit, the observed values and the location of their distribution have the same shape: (dates, 1) for a single series and (dates, series) for a panel.", "quantifier": "every configuration, target, exogenous data, effects and values of the latent variables", "why_tests_cant": "Broadcasting can silently turn a wrong shape into a different likelihood; all combinations of trends, effects and panels would have to be tried. The tests never combine the flat trend with a panel.", "anchors": ["src/prophetverse/sktime/univariate.py:_get_fit_data", "src/prophetverse/sktime/multivariate.py:_get_fit_data", "src/prophetverse/effects/trend/flat.py:FlatTrend", "src/prophetverse/models.py:multivariate_model"]}
{"id": "C75", "title": "A forecast reads only the horizon's rows of X", "statement": "A prediction depends on the exogenous data only through the rows at the dates of the horizon and the columns present at fit: two frames that agree there give the same result from every prediction method, whatever other rows, extra columns or column order they have (for panels: same columns and series).", "quantifier": "every configuration (with a feature transformer: the frames it returns), fitted state, horizon, prediction method, engine and pair of exogenous frames", "why_tests_cant": "Tests predict with one frame of exactly the right rows. Reading the past of X, or a column by position, changes nothing there and would go unnoticed.", "anchors": ["src/prophetverse/sktime/univariate.py:_get_predict_data", "src/prophetverse/sktime/multivariate.py:_get_predict_data", "src/prophetverse/effects/base.py:transform"]}
{"id": "C76", "title": "In-sample predictions evaluate the fitted model", "statement": "Predicting with the exogenous data of the fit for exactly the dates of the training data evaluates the very model that was fitted: for all values of the latent variables the same sites with the same distributions and values in the same order, the only difference being that the observation site is drawn instead of observed.", "quantifier": "every configuration, target, exogenous data, feature transformer (with fit_transform = fit then transform), inference engine and value of the latent variables", "why_tests_cant": "fit and predict build the model by two separate code paths (loc on the index vs. filtering by horizon, expansion fitted vs. reused, an index rebuilt from level products). Tests only check that both run.", "anchors": ["src/prophetverse/sktime/univariate.py:_get_fit_data", "src/prophetverse/sktime/univariate.py:_get_predict_data", "src/prophetverse/sktime/multivariate.py:_get_fit_data", "src/prophetverse/sktime/multivariate.py:_get_predict_data"]}
{"id": "C77", "title": "Component columns add up to the expected observation", "statement": "In every row of predict_all_sites the columns of trend and effects add up to the mean over the posterior draws of the expected observation of that series and date, in original units (normal, gamma above the positivity threshold, hierarchical). For counts they add up to it divided by the scale.", "quantifier": "every configuration with clean effect names, every posterior, horizon and exogenous data", "why_tests_cant": "All posteriors, effects and horizons; exact equality of sums.", "anchors": ["src/prophetverse/sktime/base.py:predict_all_sites", "src/prophetverse/models.py:_compute_mean_univariate"]}
{"id": "C78", "title": "Well-posed problems can be fitted and forecast", "statement": "For a single-series problem with valid inputs (increasing dates, at least two rows, known likelihood and trend name, exogenous rows for all dates, effects that can use the columns they match, positive scale) fit raises nothing before the inference engine and hands it a model that evaluates for all values of the latent variables; afterwards every horizon covered by the exogenous data gives a forecast with one row per date.", "quantifier": "every such configuration, target, exogenous data, horizon, posterior and engine", "why_tests_cant": "Totality over all combinations of trend, effects, likelihoods, column layouts and horizons; tests run a handful of combinations.", "anchors": ["src/prophetverse/sktime/base.py:_fit", "src/prophetverse/sktime/univariate.py:_get_fit_data", "src/prophetverse/sktime/univariate.py:_get_predict_data", "src/prophetverse/sktime/base.py:predict_samples"]}
{"id": "C79", "title": "All draws of a forecast record the same sites with the same shapes", "statement": "Two evaluations of the model of a prediction record the same sites in the same order with the same shapes, whatever the values of the latent variables, so the predictive can stack them: every returned site has the number of draws as its first axis.", "quantifier": "every configuration, fit, horizon, exogenous data and pair of latent values", "why_tests_cant": "A site or shape that depends on a sampled value (a data-dependent branch in an effect or trend) shows up only for particular draws.", "anchors": ["src/prophetverse/engine.py:predict", "src/prophetverse/models.py", "src/prophetverse/effects/base.py:predict"]}
{"id": "C80", "title": "Constructors keep their arguments", "statement": "Every parameter of a forecaster's constructor is afterwards the attribute of the same name, with the given value or the default, so that sktime's clone reproduces the object; unknown keywords are a TypeError; construction succeeds exactly if the values are acceptable; Prophet, ProphetGamma and ProphetNegBinomial are Prophetverse with a fixed likelihood; the documented defaults and parameters exist.", "quantifier": "every class and every list of keyword arguments", "why_tests_cant": "A parameter dropped or swapped on one of the three levels of super().__init__ calls is visible only for a keyword with a non-default value; tests construct a few combinations.", "anchors": ["src/prophetverse/sktime/base.py:__init__", "src/prophetverse/sktime/univariate.py:__init__", "src/prophetverse/sktime/multivariate.py:__init__", "src/prophetverse/sktime/univariate.py:get_test_params"]}
{"id": "C81", "title": "Choice of the optimiser", "statement": "The MAP fit uses the numpyro optimiser of the given name with the given keyword arguments, Adam(step_size=0.0001) by default, and a cosine decay schedule for names that start with optax; MCMC does not construct an optimiser.", "quantifier": "every class, keyword arguments, and behaviour of numpyro.optim and optax", "why_tests_cant": "Tests use one or two optimisers; the claim is about every name and every argument dictionary.", "anchors": ["src/prophetverse/sktime/base.py:optimizer", "src/prophetverse/sktime/base.py:_fit", "src/prophetverse/engine.py"]}
{"id": "C82", "title": "Trace plots after an MCMC fit", "statement": "After an MCMC fit var_names lists the variables of the model and plot_trace plots their traces.", "quantifier": "every fitted forecaster", "why_tests_cant": "The plotting helpers are not tested at all; the statement is about every fit.", "anchors": ["src/prophetverse/sktime/base.py:plot_trace", "src/prophetverse/sktime/base.py:var_names"]}
{"id": "C83", "title": "Patterns select what they match", "statement": "The pattern given with an effect selects exactly the columns whose name it matches at the start, in the order of the columns, for every pattern of a stated grammar (literals, escapes, dot, anchors, groups, alternatives, quantifiers), each with one meaning; other patterns are an error. With escaped arguments the helpers exact and starts_with select exactly the named columns and the columns with one of the prefixes, for every name.", "quantifier": "every pattern, every list of column names, every name and prefix", "why_tests_cant": "Tests try a handful of patterns and names; precedence, nesting and escaping interact in unboundedly many ways.", "anchors": ["src/prophetverse/utils/regex.py", "src/prophetverse/sktime/base.py:_match_columns"]}
{"id": "C84", "title": "Initial values come from the least squares line", "statement": "Before the initial values of a piecewise trend are suggested every series is replaced by its least squares line over its own times, and the suggested rate and offset are the slope and level of that line.", "quantifier": "every frame, every series in it, every parameters of the trend", "why_tests_cant": "Tests check shapes of the initial values; minimality over all lines for all data is a statement about real numbers.", "anchors": ["src/prophetverse/effects/trend/piecewise.py:_setup_changepoint_prior_vectors", "src/prophetverse/effects/trend/piecewise.py:_suggest_global_trend_and_offset"]}
{"id": "C85", "title": "Unusable inputs are reported", "statement": "Inputs that cannot be used are rejected with a stated exception, and exactly then: missing columns, frames without series levels or with totals only, panels of unequal lengths, quantile levels outside [0,1], arrays of the wrong size, invalid trend names, inference methods, lift scales and effect lists. Arrays whose shapes do not fit together and tables whose labels do not fit their values are rejected. Until a fit succeeds, every prediction method and every update is rejected and changes nothing. A forecast is never made from exogenous data lacking a column seen at fitting (KeyError) or, for the hierarchical class, a date of the horizon (AssertionError), whichever prediction method is called.", "quantifier": "every frame, array, parameter value, fitted forecaster, horizon and prediction method", "why_tests_cant": "Tests check single bad inputs; the claim is that the condition for each exception is exactly the stated one, for every input.", "anchors": ["src/prophetverse/utils/multiindex.py", "src/prophetverse/utils/frame_to_array.py", "src/prophetverse/effects/base.py:transform", "src/prophetverse/effects/lift_experiment.py:__init__", "src/prophetverse/sktime/base.py:_exogenous_effects", "src/prophetverse/sktime/base.py:_get_trend_model", "src/prophetverse/sktime/multivariate.py:_get_predict_data"]}
{"id": "C86", "title": "One series in the hierarchical class is a univariate model", "statement": "A single series given to HierarchicalProphet (no series levels) is fitted and forecast with the model Prophetverse uses for its normal likelihood: the same scale, trend, effects, components, noise prior, observation distribution and observed values; only the noise site (std_observation / noise_scale) and its plate (time of size one / data) have other names. Whenever the hierarchical fit succeeds so does the univariate one, and equal draws of the observations give equal forecast frames. The converse fails: column names are read as patterns by the hierarchical class only.", "quantifier": "every configuration with a library trend and clean effect names, target, exogenous data on the target's index, latent values, horizon, inference engine", "why_tests_cant": "Two classes with separate preparation code and separate model functions are compared for all inputs and all latent values; tests compare samples of one run.", "anchors": ["src/prophetverse/sktime/multivariate.py:_get_fit_data", "src/prophetverse/sktime/multivariate.py:_get_predict_data", "src/prophetverse/sktime/univariate.py:_get_fit_data", "src/prophetverse/models.py:multivariate_model", "src/prophetverse/models.py:univariate_model"]}
{"id": "C87", "title": "The posterior covers the forecast model", "statement": "The model run for a forecast has exactly the parameters of the model that was fitted: the same sample sites in the same order, with the same priors and shapes, whatever the horizon, the exogenous data passed to predict and the target stored by update. Hence with the sampler every parameter of a forecast draw has the value of one and the same posterior sample, and with the optimiser the value of the fitted point, so that two draws differ in the target only and forecast components have no spread; no parameter is silently drawn from its prior. The flat trend with several series violates this: the shape of the noise depends on the horizon.", "quantifier": "every configuration (Prophetverse; HierarchicalProphet with one series or a piecewise trend), target, exogenous data at fit and at predict, horizon, inference engine, posterior, latent values", "why_tests_cant": "numpyro samples a site that is missing from the posterior from its prior without any error, and tests look at shapes or means of random draws; the equality is needed for every horizon and every data passed to predict.", "anchors": ["src/prophetverse/sktime/base.py:_fit", "src/prophetverse/sktime/base.py:_get_predictive_samples_dict", "src/prophetverse/engine.py:predict", "src/prophetverse/models.py:multivariate_model", "src/prophetverse/models.py:univariate_model"]}
{"id": "C88", "title": "Time and data tensors of a panel are aligned", "statement": "convert_dataframe_to_tensors returns two tensors whose entries (i, j) come from the same row of the frame: the j-th row of the i-th series in order of first appearance, whatever the order of the rows; the time entry is the day of that row's label and the data entry its values. It succeeds exactly when all series have the same number of rows (or there are no series levels) and raises ValueError otherwise.", "quantifier": "every data frame with any number of series levels, rows in any order, any calendar", "why_tests_cant": "The tests use sorted frames with a handful of rows; alignment has to hold for every interleaving of the rows.", "anchors": ["src/prophetverse/utils/frame_to_array.py:extract_timetensor_from_dataframe", "src/prophetverse/utils/frame_to_array.py:convert_dataframe_to_tensors", "src/prophetverse/utils/frame_to_array.py:series_to_tensor"]}
{"id": "C89", "title": "Trend options given per series", "statement": "When changepoint_interval, changepoint_range and changepoint_prior_scale are lists with one value per series, every series has the changepoints it would have if its own values were given as scalars, the prior scales of its changepoints are its own value, and the number of changepoints n_changepoints is the length of both prior vectors and of every row of the changepoint matrix. Lists of another length are rejected. The last sentence is false: the lists are zipped, and the trend of the wrong number of series can be computed without an error.", "quantifier": "every option value or list, every panel, every horizon", "why_tests_cant": "Tests use scalar options or one list; blocks have to line up for every number of changepoints per series.", "anchors": ["src/prophetverse/effects/trend/piecewise.py:_setup_changepoints", "src/prophetverse/effects/trend/piecewise.py:_get_changepoint_prior_vectors", "src/prophetverse/effects/trend/piecewise.py:n_changepoints", "src/prophetverse/effects/trend/piecewise.py:_to_list_if_scalar"]}
{"id": "C90", "title": "The origin of the calendar does not matter", "statement": "If all dates are moved by the same number of steps (target, X, absolute horizons, dates of lift tests) and the steps of the index are equally long, fitting gives the same scale, the same model program, the same posterior and the same errors, and every kind of forecast (samples, means, quantiles, components, component samples) is the same frame with its dates moved by that number of steps. With steps of unequal length (months) the trend changes.", "quantifier": "every configuration of both classes, target, X, horizon, shift, optimiser, sampler, aggregation and date-blind transformer", "why_tests_cant": "Tests fix one date range; the statement compares whole runs for every shift.", "anchors": ["src/prophetverse/sktime/base.py:_fit", "src/prophetverse/sktime/univariate.py:_get_fit_data", "src/prophetverse/sktime/multivariate.py:_get_fit_data", "src/prophetverse/effects/trend/base.py:_index_to_scaled_timearray", "src/prophetverse/effects/fourier.py:_fit", "src/prophetverse/effects/lift_experiment.py:_transform"]}
{"id": "C91", "title": "Well-posed panels can be fitted and forecast", "statement": "For HierarchicalProphet with at least two series sharing at least two dates (the target may contain their totals), a piecewise linear or logistic trend, exogenous data covering all series and dates (or none) and effects made for panels, fit raises no error of its own: it reaches the inference engine with a model that runs for every value of the latent variables. After a successful fit every non-empty horizon without repeated dates, with data for it, can be forecast, and the samples, point forecasts and quantiles have exactly one row for each series and each kept total at each date of the horizon. The component tables (predict_all_sites and its samples) of panels without totals in the target can be computed as well, with one row for each series and date (and draw).", "quantifier": "every number of levels, series and dates, values, configuration, exogenous columns (shared or expanded), horizon, set order, aggregation, optimiser and sampler", "why_tests_cant": "Tests run a few panels; absence of errors on all well-posed panels is a statement about every branch of the pipeline at once.", "anchors": ["src/prophetverse/sktime/multivariate.py:_get_fit_data", "src/prophetverse/sktime/multivariate.py:_get_predict_data", "src/prophetverse/sktime/base.py:_fit", "src/prophetverse/sktime/base.py:predict_samples", "src/prophetverse/effects/trend/piecewise.py:_suggest_logistic_rate_and_offset", "src/prophetverse/sktime/base.py:predict_all_sites"]}
{"id": "C92", "title": "A feature transformer acts only through the table it returns", "statement": "If the feature transformer, given the exogenous table (HierarchicalProphet: the rows of the bottom series; without exogenous data a table with the rows of the target and no columns), returns a table X1, then fitting with the transformer has the same outcome - the same fitted forecaster or the same exception - as fitting without transformer on X1, the trend is the same but for the recorded column names, and the transformer is kept in its fitted state. All five kinds of forecasts with exogenous data X2 equal those of the forecaster without transformer given transform(X2). HierarchicalProphet needs X1 to keep the rows and have a column; Prophetverse needs X1 to keep the columns of the original table, since the trend is fitted on the original (see C70). If the transformer raises, so does fit; if it raises while forecasting, all five methods raise its exception and the fitted forecaster is unchanged. Hence well-posed problems (C78, C91) stated for the returned tables can be fitted and forecast with a transformer. A transformer that returns the data it is given changes neither the outcome of fit nor any forecast, for both classes and every trend; neither does, for HierarchicalProphet without exogenous columns, a transformer that keeps the rows and adds no column.", "quantifier": "all transformers (arbitrary state and functions), configurations, targets, exogenous tables, horizons, set orders and inference engines", "why_tests_cant": "Tests run one or two transformers (Fourier features) on fixed data and look at shapes; they do not compare with the forecaster without transformer, for all transformers and data.", "anchors": ["src/prophetverse/sktime/univariate.py:239-344", "src/prophetverse/sktime/multivariate.py:216-347"]}
{"id": "C93", "title": "The initial values of an accepted logistic trend are numbers", "statement": "Whenever the fit of a piecewise logistic trend accepts its data, the suggested initial rate and offset of every series are finite numbers.", "quantifier": "every frame with at least two dates, every capacity (given or 105% of the largest value), every number of series", "why_tests_cant": "Only fails when the (detrended) series ends exactly at 0 or touches the capacity exactly, a null set for random data; the code checks for NaN but not for infinity.", "anchors": ["src/prophetverse/effects/trend/piecewise.py:_suggest_logistic_rate_and_offset", "src/prophetverse/effects/trend/piecewise.py:PiecewiseLogisticTrend._suggest_global_trend_and_offset"]}
{"id": "C94", "title": "Changepoints stay where they are when the history grows", "statement": "Fit the same piecewise linear trend to a history and to the same history with later dates: the changepoints of the first fit are the first changepoints of the second one, at the same days of the calendar, and every trend of the short history is a trend of the long one (same coefficients, zeros for the new changepoints).", "quantifier": "every interval, range, number of series, target values and length of the two histories; every coefficient vector and horizon", "why_tests_cant": "Relates two fits on histories of arbitrary length; the violation needs unequal distances between dates (calendar months) and shows as a shift of fractions of a day.", "anchors": ["src/prophetverse/effects/trend/base.py:TrendEffectMixin._fit", "src/prophetverse/effects/trend/piecewise.py:_get_changepoint_timeindexes", "src/prophetverse/effects/trend/piecewise.py:PiecewiseLinearTrend._predict", "README.md:69"]}
{"id": "C95", "title": "User-written effects see exactly their columns", "statement": "For effects whose _fit, _transform and _predict are arbitrary user code: _fit is called on a new object with the target, the scale and the table restricted to the columns matching the effect's pattern (the default effect: the columns nobody has); _transform is called with these columns of the rows of the horizon (all rows if the class switches the filter off); other columns, the order of columns and rows outside the horizon make no difference. The linear, log and Hill effects are instances.", "quantifier": "every user class (attributes, methods, tags), every list of effects and patterns, every table, horizon and scale", "why_tests_cant": "Quantifies over all subclasses a user may write and over pairs of tables; tests exercise the few built-in classes.", "anchors": ["src/prophetverse/effects/base.py:BaseEffect.fit", "src/prophetverse/effects/base.py:BaseEffect.transform", "src/prophetverse/sktime/base.py:BaseProphetForecaster._fit_effects", "src/prophetverse/sktime/base.py:BaseProphetForecaster._transform_effects"]}
{"id": "C96", "title": "Methods of user-written effects are called in a fixed order", "statement": "After a fit and any number of preparations of data, every effect had _fit called first and exactly once, then _transform at most once for every preparation: never for a skipped effect, once for each if nothing was raised. A fit starts from new objects: attributes which the listed objects have from earlier do not matter.", "quantifier": "every user class, list of effects, and sequence of tables and horizons, also those raising exceptions", "why_tests_cant": "Needs instrumented classes and arbitrary sequences of calls with failures in between.", "anchors": ["src/prophetverse/effects/base.py:BaseEffect.fit", "src/prophetverse/effects/base.py:BaseEffect.transform", "src/prophetverse/effects/base.py:BaseEffect.should_skip_predict", "src/prophetverse/sktime/base.py:BaseProphetForecaster._fit_effects", "src/prophetverse/sktime/base.py:BaseProphetForecaster._transform_effects"]}
{"id": "C97", "title": "The mean has the shape of the trend", "statement": "Whatever array _predict of an effect with a mode returns, its component has the shape of the trend and the entries of that array (times the trend if multiplicative); the mean of trend and effects has the shape of the trend under numpy's broadcasting rules.", "quantifier": "every trend, every list of user-written effects, all latent values", "why_tests_cant": "Broadcasting hides wrong shapes for one date; the violation needs a subclass returning vectors, or a trend returning a vector.", "anchors": ["src/prophetverse/effects/base.py:BaseAdditiveOrMultiplicativeEffect.predict", "src/prophetverse/models.py:_compute_mean_univariate"]}
{"id": "C98", "title": "Changing the data of one effect changes only its component", "statement": "Two forecasts of one fitted forecaster, without feature transformer, with exogenous data that differ in some columns only and the same parameter values: apart from the observations and the sites of the effects fitted on those columns (or on per-series copies of them), both record the same values and distributions. If one effect is affected, the expected observations differ by exactly the change of its component.", "quantifier": "every fitted forecaster of either class with clean names, every pair of such scenarios, all latent values", "why_tests_cant": "A test compares a few scenarios of one model; leakage between effects, columns or series depends on names, patterns and order.", "anchors": ["src/prophetverse/sktime/base.py:BaseProphetForecaster._transform_effects", "src/prophetverse/sktime/univariate.py:Prophetverse._get_predict_data", "src/prophetverse/sktime/multivariate.py:HierarchicalProphet._get_predict_data", "src/prophetverse/models.py:_compute_mean_univariate"]}
{"id": "C99", "title": "The univariate class on panels: one forecaster per series, each like a single one", "statement": "Fitting Prophetverse on a panel fits one clone per series of the target, exactly as if that series and its rows of X had been given alone; it fails exactly if some series alone fails. Other series have no influence. predict, predict_samples and predict_all_sites return the results of the single forecasters one after the other, each with its own rows of X and with relative horizons counted from its own last date. The labels missing from predict_samples can be restored by position from predict.", "quantifier": "every panel, configuration, feature transformer, inference result and horizon", "why_tests_cant": "Isolation between series is a claim about pairs of panels; tests on panels only look at the shape of the result.", "anchors": ["src/prophetverse/sktime/base.py:_vectorize_predict_method", "src/prophetverse/sktime/base.py:predict_samples", "src/prophetverse/sktime/base.py:predict_all_sites", "src/prophetverse/sktime/univariate.py"]}
{"id": "C100", "title": "The joint density is the product of trend, effects, noise and likelihood", "statement": "For all parameter values, the log density of the program that is fitted (and of the one that forecasts) is the sum of the log densities of the trend run alone, of every effect run alone on its own data and the trend, of the noise priors and of the observations; nothing is counted twice or left out. A lift experiment adds exactly one masked normal factor to the effect inside. Where two values of an effect's parameters give the same effect, their posterior odds are their prior odds; in particular a linear or logarithmic effect whose columns are zero in training keeps its prior.", "quantifier": "every fit of either class with clean effect names, every family of log densities, all latent values", "why_tests_cant": "Tests never evaluate the joint density of a whole forecaster; a doubly counted or missing factor only shows as a slightly different posterior.", "anchors": ["src/prophetverse/models.py:univariate_model", "src/prophetverse/models.py:univariate_gamma_model", "src/prophetverse/models.py:univariate_negbinomial_model", "src/prophetverse/models.py:multivariate_model", "src/prophetverse/models.py:_compute_mean_univariate", "src/prophetverse/effects/lift_experiment.py:LiftExperimentLikelihood._predict"]}
{"id": "C101", "title": "The unit of an exogenous column can be absorbed by the parameters of its effect", "statement": "If every exogenous column is multiplied by a constant other than 0 (the same one for columns that share a logarithmic or Hill effect), fitting prepares the same effects, trend and scale, and the new model with converted parameters - coefficients and rates divided by the constant, half_max multiplied by it - records the same trend, effects, noise, likelihood and observations as the old model with the old parameters. The same holds for forecasts. The conversion has an inverse, so the two models describe the same set of forecasts; only the priors of the converted parameters tell them apart.", "quantifier": "every fit and forecast of either class with clean effect names and no feature transformer, every rectangular X, every factor per column, all latent values", "why_tests_cant": "It relates two models at all parameter values; a constant or a scaling that slips into one effect keeps every shape and every finite-output test intact.", "anchors": ["src/prophetverse/effects/linear.py:LinearEffect._predict", "src/prophetverse/effects/log.py:LogEffect._predict", "src/prophetverse/effects/hill.py:HillEffect._predict", "src/prophetverse/effects/base.py:BaseEffect.transform", "src/prophetverse/sktime/base.py:_transform_effects", "src/prophetverse/sktime/_expand_column_per_level.py:ExpandColumnPerLevel"]}
{"id": "C102", "title": "The forecast of a date does not depend on the other dates of the horizon", "statement": "Two forecasts of one fitted forecaster with the same exogenous data, for two horizons that share some dates: at every value of the parameters the two models record the same sites in the same order, the parameters have the same priors and values, and at every shared date, for every series, all components and the distribution of the observation are the same - wherever the date stands in each horizon and whatever the other dates are.", "quantifier": "every fit and every pair of horizons, univariate single series (piecewise or flat trend, any feature transformer) and hierarchical panels (piecewise trends; any feature transformer when the forecast is given columns), with exogenous data that has one row per series and date or without exogenous data, any library effects, any likelihood, all latent values", "why_tests_cant": "It relates all pairs of horizons; a computation that uses the position in the horizon, the first date or the length instead of the date itself gives right shapes and finite values in every test.", "anchors": ["src/prophetverse/sktime/univariate.py:Prophetverse._get_predict_data", "src/prophetverse/sktime/multivariate.py:HierarchicalProphet._get_predict_data", "src/prophetverse/effects/trend/piecewise.py:PiecewiseLinearTrend._transform", "src/prophetverse/effects/trend/flat.py:FlatTrend._transform", "src/prophetverse/effects/base.py:BaseEffect.transform", "src/prophetverse/utils/frame_to_array.py:series_to_tensor", "src/prophetverse/models.py:univariate_model", "src/prophetverse/models.py:multivariate_model"]}
{"id": "C103", "title": "The recorded trend is the documented piecewise linear function with the documented priors, in training and in forecasts", "statement": "A fitted forecaster with a piecewise trend records, at every requested date and for every series, the component \"trend\" that the documentation describes: a piecewise linear function of the time since the first training date (or, for the logistic trend, capacity / (1 + exp(-line))), with one bend at every multiple of the changepoint interval inside the changepoint range and rate changes with independent Laplace(0, sigma) priors. docs/the-theory.md gives two formulas for the line, (k + a(t) delta) t + (m + a(t) gamma) and b(t) delta + k t + m with b(t)_i = (t - kappa_i)_+; both should describe it. The same holds at the training dates for the program that inference gets. In both programs the offsets have independent normal priors around the locations stored by the fit, with the configured scale (\"linear_raw\": the first value, \"linear\": the least squares line on the first date, in units of the scale), and the capacity of the logistic trend has the configured prior, one value per series.", "quantifier": "every fit of either class with clean effect names and a piecewise trend (single series, or panels with one row per series and date), all training dates that increase, all intervals greater than 0 and all ranges, every horizon, all latent values", "why_tests_cant": "The tests compare shapes and a few entries of the changepoint matrix; the formula of the component in a forecast, over irregular dates and for every series, is an equation about all parameter values.", "anchors": ["src/prophetverse/effects/trend/piecewise.py:PiecewiseLinearTrend._predict", "src/prophetverse/effects/trend/piecewise.py:PiecewiseLinearTrend.get_changepoint_matrix", "src/prophetverse/effects/trend/piecewise.py:PiecewiseLinearTrend._setup_changepoints", "src/prophetverse/effects/trend/piecewise.py:PiecewiseLinearTrend._get_changepoint_prior_vectors", "src/prophetverse/effects/trend/piecewise.py:PiecewiseLogisticTrend._predict", "src/prophetverse/effects/trend/base.py:TrendEffectMixin", "docs/the-theory.md:91-183"]}
{"id": "C104", "title": "Every recorded effect component is the formula of its class applied to its columns, the trend and its own parameters", "statement": "In a forecast of a fitted forecaster, the component recorded under the name of an effect is, at every date, the formula of the effect's class applied to the values which the transformed exogenous data have at this date in the columns of the effect, to the trend component (multiplicative effects) and to the effect's own parameters: linear combination, scale * log(max(rate * u + 1, 1e-8)), max / (1 + (u / half_max)^(-slope)), or, for seasonalities, sine and cosine of each distinct harmonic of the number of days since the first training date; lift-test effects record the component of the wrapped effect. The parameters have the priors of the configured effect, one coefficient per column or wave. With one period and K terms, the seasonality is the sum a_k cos(2 pi k t / P) + b_k sin(2 pi k t / P), k = 1 .. K, of docs/the-theory.md. In a panel the values are those in the row of the series, unshared columns are copied for each series and a copy is zero for the other series, and each series has its own coefficients and its own origin of time for a seasonality. The same holds for the components which the trained program records at the training dates.", "quantifier": "every fit of the univariate class on one series with clean effect names, piecewise or flat trend, or of the hierarchical class on a panel with piecewise trend; with or without exogenous data and with any feature transformer that returns well-formed frames; every horizon whose dates increase and are covered by the transformed exogenous data, all latent values", "why_tests_cant": "The tests check shapes of effect outputs and single effects with fixed arrays; that the forecaster hands every effect the right rows, columns, trend, origin of time and parameters is an equation about all data and all parameter values.", "anchors": ["src/prophetverse/effects/linear.py:LinearEffect._predict", "src/prophetverse/effects/log.py:LogEffect._predict", "src/prophetverse/effects/hill.py:HillEffect._predict", "src/prophetverse/effects/fourier.py:LinearFourierSeasonality", "src/prophetverse/effects/lift_experiment.py:LiftExperimentLikelihood", "src/prophetverse/effects/base.py:BaseAdditiveOrMultiplicativeEffect", "src/prophetverse/sktime/univariate.py:Prophetverse._get_predict_data", "src/prophetverse/sktime/base.py:BaseProphetForecaster._transform_effects", "docs/the-theory.md:191-203"]}
{"id": "C105", "title": "The observations have the documented distribution around the sum of the recorded components", "statement": "docs/the-theory.md: y ~ likelihood(phi(mean), sigma^2) with sigma ~ HalfNormal(sigma_hyper), the mean being the sum of the trend and the effects, phi the identity for the normal likelihood and, for gamma and negative binomial, k above the threshold z = 1e-5 and z exp(k - z) up to it; panels have a multivariate normal likelihood with an LKJ prior on the correlations. In the program that is trained, every observed number should be the number of the data over its scale (counts are not scaled) at its own date and series, and in training and forecast alike its distribution should be the documented one around the sum of the components recorded at this date and series, with the configured half-normal prior on the noise.", "quantifier": "every fit of the univariate class on one series (piecewise or flat trend) and of the hierarchical class on panels (piecewise trend), with clean effect names; all data, all exogenous data and transformers, every horizon covered by the exogenous data, all latent values", "why_tests_cant": "The tests only check that fits with each likelihood run; which number is observed under which mean, and with which variance, is a statement about all components, dates, series and parameter values.", "anchors": ["src/prophetverse/models.py:univariate_model", "src/prophetverse/models.py:univariate_gamma_model", "src/prophetverse/models.py:univariate_negbinomial_model", "src/prophetverse/models.py:multivariate_model", "src/prophetverse/models.py:_to_positive", "src/prophetverse/distributions.py:GammaReparametrized", "src/prophetverse/sktime/univariate.py:Prophetverse._get_fit_data", "src/prophetverse/sktime/multivariate.py:HierarchicalProphet._get_fit_data", "docs/the-theory.md:57-80", "docs/the-theory.md:245-253"]}
{"id": "C106", "title": "Effects of hierarchical forecasters apply to the columns their patterns match", "statement": "exogenous_effects lists (name, effect, pattern); the effect applies to the columns of X the pattern matches. In HierarchicalProphet a column outside shared_features is replaced by one copy per bottom series, called column_dup_series, before patterns are matched. An effect should receive a shared column if and only if its pattern matches the column, and the copies of an unshared column, all of them, if and only if its pattern matches the column; the default effect should receive what is left.", "quantifier": "every hierarchical fit without feature transformer, every list of effects and patterns of the modelled syntax, every set of columns whose copies have new names, all shared features and series", "why_tests_cant": "tests/sktime/test_multivariate.py checks that fits and forecasts run and what index they have; tests/sktime/test_expand_column_per_level.py looks at the names of copies for one frame. Neither compares the columns an effect receives with its pattern, and the answer depends on pattern, column names and series labels together.", "anchors": ["src/prophetverse/sktime/multivariate.py:HierarchicalProphet._get_fit_data", "src/prophetverse/sktime/_expand_column_per_level.py:ExpandColumnPerLevel.get_col_name", "src/prophetverse/sktime/base.py:BaseProphetForecaster._fit_effects", "src/prophetverse/utils/regex.py:exact", "src/prophetverse/utils/regex.py:starts_with"]}
{"id": "C107", "title": "Warnings about overlapping and empty patterns", "statement": "Fitting the effects issues, in the order in which effects are listed, one warning for every effect whose pattern matches a column that an effect listed before it matches, naming exactly those columns, and one for every effect whose pattern matches no column; nothing else is warned about, a fit that fails has issued the warnings of the effects before the failing one, and the fitted effects do not depend on warnings. An effect listed without pattern, as seasonalities are, always causes a warning; so does exact(column) in HierarchicalProphet unless the column is shared.", "quantifier": "every list of effects and patterns of the modelled syntax, every frame of exogenous variables, all fits of both forecasters without feature transformer", "why_tests_cant": "No test in tests/ looks at warnings. The columns named depend on all effects listed before, so lists of effects and patterns would have to be enumerated.", "anchors": ["src/prophetverse/sktime/base.py:BaseProphetForecaster._fit_effects", "src/prophetverse/sktime/base.py:BaseProphetForecaster._match_columns", "src/prophetverse/utils/regex.py:no_input_columns"]}
{"id": "C108", "title": "The default effect is an effect listed last", "statement": "Columns matched by no pattern go to the default effect. Fitting with it is the same as listing the default effect explicitly as the last entry, under the name exogenous_variables_effect, with a pattern that matches exactly these columns: the fit fails with the same error or gives the same fitted effects, model and forecasts.", "quantifier": "every configuration of Prophetverse without feature transformer, every list of effects, every default effect, every X with string columns, every pattern that matches exactly the remaining columns", "why_tests_cant": "tests/sktime/ fits with and without default_effect separately and does not compare a default with an explicit listing. Whether they agree depends on the order of columns in X, which is alphabetical (x1, x2, x3) in the frames of tests/sktime/_utils.py.", "anchors": ["src/prophetverse/sktime/base.py:BaseProphetForecaster._fit_effects", "src/prophetverse/sktime/base.py:BaseProphetForecaster._match_columns"]}
{"id": "C109", "title": "Hyperparameters of priors change only the priors of their own parameters", "statement": "Changing the scales and locations of priors (trend rates, offset, capacity, noise, correlation) or the options of the inference changes neither the prepared data, nor the errors, nor what the model computes from given parameters: only the distribution of the parameter to which a changed option belongs. An option whose parameter the chosen trend and class do not have changes nothing at all: fits and all forecasts are equal.", "quantifier": "every pair of configurations of both classes that agree outside the options for priors and inference, every y, X, horizon, feature transformer, inference oracle and assignment of parameters", "why_tests_cant": "tests/sktime/test_univariate.py fits one hyperparameter setting at a time and asserts the shape and index of its forecasts. Non-interference compares two runs for all parameter values, and for all values of the options.", "anchors": ["src/prophetverse/sktime/base.py:BaseProphetForecaster._get_trend_model", "src/prophetverse/sktime/univariate.py:Prophetverse._get_fit_data", "src/prophetverse/sktime/multivariate.py:HierarchicalProphet._get_fit_data", "src/prophetverse/models.py"]}
{"id": "C110", "title": "Every column of predicted samples is one posterior draw", "statement": "The sampler is run once, on the training model with the configured warmup, draws and chains. Column k of predict_samples is the observation of the forecast model in draw k mod samples of chain k / samples (with \"map\": in draw k of 1000 draws of the guide), times the scale of its series. No draw is lost, repeated or moved, all dates and all series of a column come from the same draw, and no other values enter.", "quantifier": "every univariate configuration with a single series, every hierarchical configuration with a piecewise linear trend and several series, every y, X, horizon (in order, for panels), feature transformer and inference oracle", "why_tests_cant": "The tests assert the shape and the index of point forecasts, and that the other methods return data frames. Which draw a number comes from cannot be seen from shapes, and mixing dates or series of different draws leaves every marginal distribution unchanged.", "anchors": ["src/prophetverse/engine.py:MCMCInferenceEngine", "src/prophetverse/engine.py:MAPInferenceEngine", "src/prophetverse/sktime/base.py:BaseBayesianForecaster.predict_samples", "src/prophetverse/sktime/multivariate.py:HierarchicalProphet.predict_samples"]}
{"id": "C111", "title": "An effect that finds no columns changes nothing", "statement": "An effect of a class that is skipped without columns and whose pattern selects no column can be added to exogenous_effects, at any place and under any name, or removed from it: fitting succeeds as before, with the same scale and the same posterior, and predict, predict_samples, predict_quantiles, predict_all_sites and predict_all_sites_samples give the same results.", "quantifier": "every configuration of both classes, position in the list, name, effect, y, X, horizon, feature transformer and inference oracle; for removal, any effect fitted without columns", "why_tests_cant": "The tests list an effect named lineareffect_no_match and check that fitting and predicting run, but never compare with a forecaster that does not list it. An unmatched effect that still took part, or that claimed columns of others, would pass them.", "anchors": ["src/prophetverse/sktime/base.py:BaseProphetForecaster._fit_effects", "src/prophetverse/sktime/base.py:BaseProphetForecaster._transform_effects", "src/prophetverse/effects/base.py:BaseEffect.should_skip_predict"]}
{"id": "C112", "title": "End to end: the component table holds the documented formulas in the units of the target", "statement": "The table returned by predict_all_sites has, for every requested date (and bottom series of a panel), in the column trend the average over the posterior draws of the documented piecewise linear or logistic trend (for a flat trend: of its level), and in the column of each effect taking part the average over the posterior draws of the formula of the effect configured under that name, applied to the values of its columns at that date, each multiplied by the scale of the target (of the series).", "quantifier": "every fit of the univariate class on one series, or of the hierarchical class on a balanced panel with exogenous columns, with the columns a feature transformer returns, or without columns, with piecewise linear or logistic trend (one series: also flat trend) and distinct effect names; every covered horizon in order, all inference oracles and posterior draws", "why_tests_cant": "Tests check that the table exists and the names of its columns. That changepoint rates, columns, parameters, draws, series labels and rescaling are all combined in the right cell is a statement about the composition of every stage from fit to table.", "anchors": ["src/prophetverse/sktime/base.py:BaseBayesianForecaster.predict_all_sites", "src/prophetverse/effects/trend/piecewise.py:PiecewiseLinearTrend._predict", "src/prophetverse/effects/base.py:BaseEffect.predict", "src/prophetverse/sktime/base.py:BaseBayesianForecaster._inv_scale_y"]}
{"id": "C113", "title": "Every series of a panel has units of its own", "statement": "With automatic scaling, multiplying each series of a panel by a positive factor of its own changes nothing in the model that HierarchicalProphet fits (same prepared attributes and posterior, same errors), and in the result of every prediction method the values of each series are multiplied by the factor of that series; no other series is affected. The same holds for the point forecasts of Prophetverse on a panel. No series is zero throughout, for HierarchicalProphet.", "quantifier": "every panel with any number of levels and series, every positive factor per series, configuration without user-given scale, exogenous data, prediction method, horizon, transformer, optimiser and sampler", "why_tests_cant": "Tests fix a few panels in one unit; the property compares two complete runs of the pipeline for all data and all factors.", "anchors": ["src/prophetverse/sktime/base.py:BaseBayesianForecaster._set_y_scales", "src/prophetverse/sktime/base.py:BaseBayesianForecaster._scale_y", "src/prophetverse/sktime/base.py:BaseBayesianForecaster._inv_scale_y", "src/prophetverse/sktime/multivariate.py:HierarchicalProphet._get_fit_data"]}
{"id": "C114", "title": "Patterns matter only through the columns they select", "statement": "If the regular expressions of the exogenous effects of a fitted forecaster are replaced by others that select the same columns for every effect, fitting again gives the very same fitted forecaster (effects, default effect, scale, posterior), and every prediction method returns the same. Agreement is needed only on the columns some effect uses: the columns of X for Prophetverse, the shared columns and the copies per series for HierarchicalProphet. In particular order, repetitions and redundant longer prefixes in starts_with do not matter.", "quantifier": "every configuration, data, pair of lists of supported patterns, feature transformer, prediction method and horizon", "why_tests_cant": "Two spellings of a pattern agree on the column names of a test; the property relates whole runs for all names and all patterns of the supported syntax.", "anchors": ["src/prophetverse/sktime/base.py:BaseProphetForecaster._match_columns", "src/prophetverse/sktime/base.py:BaseProphetForecaster._fit_effects", "src/prophetverse/utils/regex.py:starts_with"]}
{"id": "C115", "title": "Names of effects are labels", "statement": "Renaming the exogenous effects (different names stay different, no slashes, no names the library uses itself) changes nothing but labels: fitting has the same outcome with the same fitted effects, the program given to inference differs only in the names of its sites (the effect's own name and everything below 'name/'), its value and joint density are the same for the same parameter values, and with posterior draws that have the same values under the new names every forecast is the same, with component columns under the new names.", "quantifier": "every renaming, configuration, data, feature transformer, optimiser, sampler, prediction method and horizon", "why_tests_cant": "Names could matter through prefixes, the order of dictionaries, look-ups among earlier effects or clashes; the property relates two complete runs for all renamings and data.", "anchors": ["src/prophetverse/models.py:_compute_mean_univariate", "src/prophetverse/sktime/base.py:BaseProphetForecaster._fit_effects", "src/prophetverse/sktime/base.py:BaseProphetForecaster._transform_effects", "src/prophetverse/sktime/base.py:BaseBayesianForecaster.predict_all_sites"]}
{"id": "C116", "title": "The forecast of a series at a date reads only the exogenous values of that series and date", "statement": "Two forecasts of one fitted forecaster with two exogenous data sets that have the same columns and series, but may differ in values and dates, and two horizons: at every value of the parameters the two models record the same sites in the same order, the parameters have the same priors and values, and for every series and shared date at which both data sets hold the same values, all components and the distribution of the observation are the same. Changing the future exogenous data of one series or date cannot move the forecast of another.", "quantifier": "every fit, every pair of exogenous data sets and horizons, univariate single series (piecewise or flat trend, any feature transformer, values after the transformation) and hierarchical panels (piecewise trends, no feature transformer or one which returns columns), one row per series and date, any library effects, any likelihood, all latent values", "why_tests_cant": "It relates all pairs of data sets. A leak between series or dates - through copied columns, a wrong axis, a normalisation over the horizon, a saturation curve over the whole array - still gives right shapes and finite values.", "anchors": ["src/prophetverse/sktime/univariate.py:Prophetverse._get_predict_data", "src/prophetverse/sktime/multivariate.py:HierarchicalProphet._get_predict_data", "src/prophetverse/utils/multiindex.py:loc_bottom_series", "src/prophetverse/sktime/_expand_column_per_level.py:ExpandColumnPerLevel.transform", "src/prophetverse/effects/base.py:BaseEffect.transform", "src/prophetverse/models.py:multivariate_model"]}
{"id": "C117", "title": "Results of lift experiments inform forecasts only through the posterior", "statement": "A forecaster whose effects carry results of lift experiments, once fitted, can be fitted without them. The model given to the inference engine is then the same except for the observations of the experiments: at all values of the parameters it has the same value and the same values at all other sites, and the joint log density is the sum of the density of the model without experiments and the densities of the results. The model of a forecast differs in the same way, so two posteriors with the same draws give the same forecasts and the same draws of all other sites, with and without experiments.", "quantifier": "every configuration with effect names without slashes and a default effect without experiment, univariate and hierarchical, any trend, likelihood and feature transformer, any experiments attached to effects that take part, all data, all latent values, any inference engine", "why_tests_cant": "It compares all programs with their counterparts without experiments. An experiment that shifts the effect, replaces its value at the dates of the experiment, or adds a parameter still gives finite forecasts of the right shape, and tests of one inference run cannot separate a moved posterior from a moved model.", "anchors": ["src/prophetverse/effects/lift_experiment.py:LiftExperimentLikelihood.fit", "src/prophetverse/effects/lift_experiment.py:LiftExperimentLikelihood._transform", "src/prophetverse/effects/lift_experiment.py:LiftExperimentLikelihood._predict", "src/prophetverse/sktime/base.py:BaseProphetForecaster._fit_effects", "src/prophetverse/sktime/base.py:BaseProphetForecaster._transform_effects", "src/prophetverse/models.py:univariate_model"]}
{"id": "C118", "title": "More of what helps never lowers a forecast", "statement": "At one draw of the parameters, take two forecasts of a fitted forecaster and a date in both. If, at this date, no input of an effect with nonnegative coefficient, scale, rate, slope and maximum is lower in the second forecast (and no input with a negative coefficient is higher), then the trend is the same in both, no component is lower in the second forecast, and the expected observation is not lower, for every likelihood. Hill effects satisfy this.", "quantifier": "every configuration with effect names without slashes, univariate with any trend model of the library, likelihood and feature transformer and hierarchical panels with piecewise trends and any feature transformer that keeps the series, linear, log, Hill and lift effects and seasonalities, additive or (with nonnegative trend) multiplicative, all data, dates, horizons and parameters", "why_tests_cant": "It compares all pairs of inputs at all parameters. A reversed saturation, a clipped logarithm on the wrong side or a link that is not monotone can agree with the intended curve at the few inputs of a test; the drop of Hill effects at zero appears only when zero is compared with a positive input.", "anchors": ["src/prophetverse/effects/hill.py:HillEffect._predict", "src/prophetverse/effects/log.py:LogEffect._predict", "src/prophetverse/effects/linear.py:LinearEffect._predict", "src/prophetverse/effects/base.py:BaseAdditiveOrMultiplicativeEffect.predict", "src/prophetverse/utils/algebric_operations.py:_exponent_safe", "src/prophetverse/models.py:univariate_model", "src/prophetverse/models.py:multivariate_model"]}
{"id": "C119", "title": "Columns of exogenous data are found by name", "statement": "Two sets of exogenous data with the same rows and the same values in the columns which a fitted forecaster knows give identical forecasts: samples, point forecasts, quantiles and components, or the same exception. The order of the columns and any further column do not matter. The known columns are those of the training data and, for panels, their copies for single series. Exogenous data whose columns come in another order at training give the same training model, posterior and forecasts.", "quantifier": "every configuration, both forecaster classes, all trends and effects, all data, horizons and feature transformers which find their columns by name; the statement on training: univariate class, trend models of the library, no feature transformer", "why_tests_cant": "Tests build their frames with one order of columns. A selection by position, or a copy for one series taken from the wrong column would pass as long as prediction data have the same layout as training data; the numbering of coefficients by column order is seen only when two layouts are compared.", "anchors": ["src/prophetverse/effects/base.py:BaseEffect.transform", "src/prophetverse/sktime/base.py:BaseProphetForecaster._transform_effects", "src/prophetverse/sktime/base.py:BaseProphetForecaster._fit_effects", "src/prophetverse/sktime/_expand_column_per_level.py:ExpandColumnPerLevel.transform", "src/prophetverse/sktime/univariate.py:Prophetverse._get_predict_data", "src/prophetverse/sktime/multivariate.py:HierarchicalProphet._get_predict_data"]}
{"id": "C120", "title": "Forecasts repeat with the season", "statement": "Take one fitted forecaster, one posterior draw and two dates p steps apart, in one forecast or in two. A seasonality all whose periods divide p, or an effect whose columns have the same values on both dates, contributes the same number on both dates, relative to the trend if it is multiplicative. If this holds for all effects, equal trends (always so for a flat trend) give equal expected observations. With additive effects and the normal likelihood the expected observations differ exactly by the difference of the trends.", "quantifier": "every configuration, both forecaster classes, all effects, data, horizons, posterior draws, dates and distances p; panels: piecewise trends", "why_tests_cant": "A test of seasonality compares a few days with recorded numbers. That nothing else depends on the date, such as a counter of days restarted in every forecast or a lift experiment read at the wrong date, must hold for all pairs of dates and horizons.", "anchors": ["src/prophetverse/effects/fourier.py:LinearFourierSeasonality._transform", "src/prophetverse/effects/fourier.py:LinearFourierSeasonality._predict", "src/prophetverse/effects/base.py:BaseAdditiveOrMultiplicativeEffect.predict", "src/prophetverse/models.py:univariate_model", "src/prophetverse/models.py:multivariate_model", "src/prophetverse/effects/trend/flat.py:FlatTrend._predict"]}
{"id": "C121", "title": "Components are limited by their parameters", "statement": "For every posterior draw and date, each component of a forecast is at most a limit given by its parameters and the inputs of this date: the sum of |input * coefficient| for linear effects, the maximum for Hill effects, the sum of the sizes of the coefficients for seasonalities, the linear effect scale * rate * input for log effects (ln(1e8) times the scale where rate * input is negative); times the size of the trend for multiplicative effects. The location of the observation differs from the trend by no more than the sum of these limits. A logistic trend with positive capacity stays strictly between zero and its capacity at every date.", "quantifier": "every configuration, both forecaster classes, all effects, data, horizons, posterior draws and dates; Hill effects: inputs which are not negative and a positive half-maximum; panels: piecewise trends", "why_tests_cant": "Tests look at short horizons with small parameters. That saturation holds for arbitrarily distant dates and arbitrarily large inputs is a statement about all of them.", "anchors": ["src/prophetverse/effects/hill.py:HillEffect._predict", "src/prophetverse/effects/log.py:LogEffect._predict", "src/prophetverse/effects/linear.py:LinearEffect._predict", "src/prophetverse/effects/fourier.py:LinearFourierSeasonality._predict", "src/prophetverse/effects/trend/piecewise.py:PiecewiseLogisticTrend._predict", "src/prophetverse/models.py:univariate_model", "src/prophetverse/models.py:multivariate_model"]}
{"id": "C122", "title": "Adding an effect adds its component and changes nothing else", "statement": "Take two forecasters of one series, or of a panel with the same series, with the same training dates and the same kind of trend; targets, exogenous data, priors and posteriors may differ. For draws which agree on the parameters of the trend both have the same trend at every date (for every series). An effect they have in common, with the same parameters and inputs, contributes the same number to both. If the second one has all effects of the first one and some more, the location of its observations is that of the first one plus exactly the components of the additional effects; with no additional effects both are equal.", "quantifier": "every pair of configurations of the same class (for panels: piecewise trends, one row per series and date), all effects (also with lift experiments), training data on the same dates, horizons, posterior draws and dates", "why_tests_cant": "A test can compare a few models with and without an effect after a fit, where the posteriors differ too. That effects do not influence each other through names, columns, order or the scale holds for all sets of effects only by proof.", "anchors": ["src/prophetverse/models.py:_compute_mean_univariate", "src/prophetverse/models.py:univariate_model", "src/prophetverse/effects/base.py:BaseAdditiveOrMultiplicativeEffect.predict", "src/prophetverse/sktime/base.py:BaseProphetForecaster._fit_effects", "src/prophetverse/sktime/base.py:BaseProphetForecaster._transform_effects", "src/prophetverse/models.py:multivariate_model"]}
{"id": "C123", "title": "After the last changepoint forecasts go on with the final rate of the trend", "statement": "Take one posterior draw and two forecast dates which are not before any changepoint. Between them the recorded linear trend changes by exactly the number of steps between the dates times the sum of all rate adjustments of the series; a logistic trend does the same on the scale of its curve. If the changepoint range is below one, or ends within the history, this applies to all dates from the last training date on. With a linear trend, the normal likelihood and additive effects which repeat between the two dates, the expected observations differ by exactly this growth.", "quantifier": "both classes, all configurations with piecewise trends (scalar options), training data, pairs of forecasts of the same fitted forecaster, posterior draws and dates", "why_tests_cant": "A test can look at the slope of a few forecasts. That no horizon, no cutoff of the data given when forecasting and no other effect changes the slope holds for all of them only by proof.", "anchors": ["src/prophetverse/effects/trend/piecewise.py:PiecewiseLinearTrend._predict", "src/prophetverse/effects/trend/piecewise.py:PiecewiseLogisticTrend._predict", "src/prophetverse/effects/trend/piecewise.py:_get_changepoint_matrix"]}
