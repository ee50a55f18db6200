{
 "C42": "Refuted in general: the helpers do not escape metacharacters. Proved for metacharacter-free names; the matcher is proved against the declarative semantics for all patterns.",
 "C43": "Refuted: names of the columns to expand are used as regex prefixes, so a shared column with such a prefix is expanded. Proved when no non-shared name is a prefix of a shared one.",
 "C44": "Proved whenever the generated names are distinct and new; refuted otherwise (a user column is overwritten).",
 "C45": "Refuted ('-' in level values, '_dup_' in names). Proved when level values contain no '_' (and no '-' with several levels).",
 "C10": "Fractions and 'first r points' proved on the grid. Refuted: a negative range drops one point more than documented, r=1.0 leaves only the changepoint at 0, and a range beyond the history puts changepoints after its end.",
 "C12": "Refuted: each changepoint at or after time 1 adds a jump of one coefficient. Proved: continuity away from changepoints, and agreement with a continuous hinge function on the integer grid. Stated on the values the trend computes.",
 "C15": "Refuted: the functional update of the location vector is discarded, so every location is zero (proved for every fit).",
 "C16": "First endpoint proved; last endpoint refuted for every series with different end values (sign of the rate).",
 "C18": "Refuted with the default initial detrending (line below zero); proved without it for data below the capacity.",
 "C19": "Refuted when another series starts at zero; proved otherwise.",
 "C21": "Constancy and moments proved for positive mean; refuted for non-positive mean (invalid Gamma prior).",
 "C01": "For every scale the forecaster can hold after _set_y_scales (float, int, DataFrame or Series), over exact reals.",
 "C02": "Values of a series lie in [-1,1], the bound is attained for non-zero series, zero series are unchanged.",
 "C03": "Violated: an all-zero single series, any int scale and any pandas Series scale raise. The working cases (panels, non-zero single series, float scales) are proved.",
 "C50": "The aggregator (external) is modelled with an arbitrary choice of aggregate nodes.",
 "C51": "For every choice of aggregate nodes; samples and point forecasts.",
 "C52": "Univariate, many-series and hierarchical predict_samples.",
 "C53": "Violated for the multivariate obs site (time-major entries under series-major labels); proved for all other sites.",
 "C54": "Violated: predict_all_sites_samples is not scaled back. The exact factor between both is proved.",
 "C55": "Violated for unbalanced hierarchies (phantom series); exact when every combination of level values exists.",
 "C56": "",
 "C58": "Isolation proved; series labels are lost for every panel. C99 shows that they can be restored by position.",
 "C59": "",
 "C60": "Linear interpolation between order statistics, as pandas.",
 "C04": "Scaling functions are the identity for discrete likelihoods (hence predict_samples by C52); mean of the negative binomial proved through the whole model function.",
 "C36": "All model functions, for every trend program, effect programs, data and draws. Effect names must be distinct and not 'trend' (otherwise components are overwritten, see C71).",
 "C37": "Trace equality up to order, hence same density and forecasts, for slash-free distinct names; shipped effects are shown to be trend-only in the effects file. C37_fit and C37_predict are the statement for whole forecasters, in both directions.",
 "C46": "Over exact reals.",
 "C47": "Over exact reals.",
 "C48": "Validity for every positive noise draw; also: the likelihood part never fails.",
 "C49": "Violated: D L D is passed as Cholesky factor. The actual covariance is proved, and agreement when all deviations are one.",
 "C71": "Disjointness for slash-free parameter names; distinctness of all sites for slash-free, non-reserved effect names, also for the models built by complete fits and predictions. Counterexamples show both conditions are needed.",
 "C23": "Refuted for LinearFourierSeasonality (AttributeError). Proved for all other classes, fresh, cloned or after a rejected fit.",
 "C24": "Effect classes in PropEffects; the effects of a fitted forecaster in PropForecaster. C24_table states it for the table the effects are given, with or without a feature transformer; C24_univariate and C24_hierarchical describe the columns of that table without one.",
 "C25": "For every class, any fit and any two frames that agree on the columns seen and the horizon.",
 "C26": "Values proved for every class with a mode. Invalid modes are rejected at construction except by LinearFourierSeasonality, which only fails at fit.",
 "C27": "On the raw program, for arrays of any leading shape.",
 "C28": "",
 "C29": "",
 "C30": "Refuted for all parameters: the value at zero is the maximal effect, because exponent_safe maps 0 to 0.",
 "C31": "Value, likelihood site (one term per horizon date, zero without lift) and data of the wrapped effect.",
 "C32": "For any list of periods, shifted by a common multiple of them.",
 "C33": "Refuted for LinearFourierSeasonality (expander of an earlier panel fit survives); proved for all other classes and for seasonalities without such a history.",
 "C34": "",
 "C35": "",
 "C38": "Proved for fitting and for every later prediction, any effects, names may repeat.",
 "C39": "Proved: with X=None the flag is truthy in both cases (~ of a bool), the participating effects are exactly those needing no columns, and each contributes. C39_univariate, C39_hierarchical and C39_contributes are stated without a feature transformer; C92 relates fits and forecasts with one to those on the transformed data.",
 "C40": "Proved for both forecasters; patterns are prefix matches as in C42. C40_table pins the table the effects select from, with or without a feature transformer.",
 "C41": "Proved for distinct, non-reserved names. Refuted for repeated names and for the reserved name exogenous_variables_effect: the overwritten effect's data do not influence the model. C41_table_fit_partial and C41_table_predict_partial state it for both forecasters and the table the effects are given, with or without a feature transformer.",
 "C70": "Refuted for Prophetverse: the trend is fitted on the raw X and later asks for its columns, so the fit fails with KeyError exactly when the transformer drops one. Preparation of the trend succeeds if columns are kept, and always in HierarchicalProphet.",
 "C63": "The key is 24 and fits of single series do not depend on the hash seed. Refuted for HierarchicalProphet: column order after expansion follows a Python set of strings, so runs in different processes build different models.",
 "C66": "Proved for every loss sequence; NaN before the end is not reported, infinite losses are accepted.",
 "C67": "Proved for every engine, horizon, number of series.",
 "C64": "Proved for parameters other than NaN, with ValueError as the only error. Refuted for NaN, which passes every check. After a successful check the trend model can be built.",
 "C68": "Proved for every pair of arguments, including values that are neither booleans nor integers.",
 "C69": "Proved for non-empty lists. Refuted for the empty list, which raises IndexError when written back; shorter lists drop effects silently and triples raise.",
 "C61": "Proved for Prophetverse after every history and for absolute horizons in both classes; for HierarchicalProphet with relative horizons when the last fit or refitting update is followed by predictions only. Refuted after update without refitting: labels count from the new data, features from the old.",
 "C62": "Proved for every history, class and engine: predictions may be removed from any place of a history without changing any later result.",
 "C73": "Proved for every history. Assumes transformers forget their state when fitted (sktime's contract) and, for a trend object, that it is a shipped trend or a stateless effect.",
 "C05": "Proved for every history of calls, every engine and both classes, provided no series of a panel is zero throughout (refuted there: such a series keeps scale 1 in any units). In HierarchicalProphet the trend object must not be a lift experiment.",
 "C57": "Proved for a sorted X; the row order of X matters (refuted). C57_fit_partial and C57_predict_partial are stated without a feature transformer; C92 relates fits and forecasts with one to those on the transformed data.",
 "C72": "Proved for piecewise trends and linear effects when X has no unknown series; unknown series can fill the gaps (refuted). C72_complete_partial is stated without a feature transformer; C92 relates fits and forecasts with one to those on the transformed data.",
 "C65": "Proved for effects (cloned) and for forecasters with trend objects and transformers of their own; refuted for shared trend objects and shared transformers, which are fitted in place.",
 "C74": "Proved for one series (piecewise trends, or flat without transformer) and for balanced panels with piecewise trends. Refuted in general for the flat trend with several series: every run has different shapes, so HierarchicalProphet(trend='flat') is unusable with more than one series.",
 "C75": "Proved for every prediction method and engine. A feature transformer may read whatever it is given, so with one the statement is about what it returns (C75_transformed_univariate, C75_transformed_panel). For panels the two frames must have the same columns and series.",
 "C22": "Stated on the values computed by the trend itself, for any changepoints, offsets and coefficients.",
 "C76": "Proved for one series with ascending index, for panels with exogenous columns covering the training dates, and for panels without columns when every combination of level values is a series. Refuted without that last condition: the prediction's index contains series that do not exist (see C55). The panel used there has the flat trend. For panels, a feature transformer has to return a table with columns.",
 "C77": "Normal, gamma (exact above the positivity threshold, general form through the positive transform), hierarchical with several series and a piecewise trend, and with one series. Refuted for counts: the columns are the expected observation divided by the scale.",
 "C78": "Full for Prophetverse. Without feature transformer: C78_fit (fit reaches the engine with a model that runs), C78_forecast and C78_methods (samples, point forecasts, quantiles) and C78_components (predict_all_sites and predict_all_sites_samples). Hypotheses on inputs are stated by well_posed; the engine may still fail, its draws must be positive where a Hill effect takes a power, and for the component tables its posterior must name exactly the unobserved sample sites of the trained model. With a feature transformer: C78_transformed_fit, C78_transformed_forecast, C78_transformed_methods and C78_transformed_components, for transformers whose output is well posed and keeps the columns of X, which the trend asks for (C70); C92_total_fit and C92_total_forecast derive samples from the equality with the fit on the transformed data. HierarchicalProphet is C91.",
 "C79": "Full for both classes, all trends and effects.",
 "C80": "Storing, cloning, rejection, acceptance and the three older classes are full. Refuted: the docstrings' default trend of the older classes (linear; it is logistic), the documented parameter default_exogenous_prior (unknown keyword) and scale for HierarchicalProphet.",
 "C81": "Full except that an optax name without keyword arguments fails in every MAP fit: the default arguments are not those of the schedule.",
 "C82": "Refuted: the engines keep no attribute mcmc_, so plot_trace always raises AttributeError, and the fit data have no key distributions, so var_names is always empty.",
 "C83": "Full for the modelled pattern syntax (character classes, counted, lazy and possessive quantifiers and alphanumeric escapes are outside and count as errors).",
 "C84": "The replacement by the least squares line is full (least, unique, no series added or lost). Refuted for the suggestion: the rate is minus the slope.",
 "C85": "Full for built-in trends without feature transformer (C70 treats transformers); the hierarchical column claim excludes names that look like expanded columns. Arrays, tables and calls before a fit are in PropRaiseArrays.v; trends, broadcasting, stacked samples and component tables in PropRaiseMore.v; scales, column patterns, elementwise operations and tables of samples in PropRaiseScale.v.",
 "C86": "Library trends (piecewise with numbers for interval and range, flat), no feature transformer, exogenous data on the index of the target. The hierarchical fit is assumed to succeed; the converse is refuted by an example (C86_pattern_names). Broadcasting inside numpyro's plates is not modelled, so the size of the plate does not enter the density.",
 "C87": "Full for Prophetverse and for HierarchicalProphet with one series or a piecewise trend. With the flat trend and several series the full statement is refuted (C87_flat_refuted): std_observation and corr_matrix have as many entries as the trend has rows, fit and forecast differ. What numpyro does with the posterior (runs the model to find its sites, keeps posterior values, a point guide) is a hypothesis, shown to be satisfiable.",
 "C88": "Full for date and period indexes.",
 "C89": "Full for lists of the right length; rejection of other lengths is refuted (C89_short_list_refuted).",
 "C90": "Full for both classes, as equalities between whole runs, errors included. Exact real arithmetic; the clock must move by a constant number of days (C90_months shows that this is needed).",
 "C91": "Full for the class of problems in Spec/PanelSpec.v without feature transformer (with one: C92_total_fit, C92_total_panel, C92_total_panel_methods and C92_total_panel_components): C91_fit, C91_forecast and C91_methods; C91_components adds predict_all_sites and predict_all_sites_samples, for targets without totals of their own and an engine whose posterior names exactly the unobserved sample sites of the trained model. The flat trend and the Hill, log and lift effects are excluded because the code rejects or breaks on panels with them (C74, C85). One series is C86.",
 "C92": "Arbitrary transformers as oracles. For Prophetverse the trend must not be an effect object (it could read the untransformed table), except in C92_identity (a transformer returning its data). C92_bare covers a table without columns which HierarchicalProphet gets back for data without columns; one it gets back for data with columns is not covered.",
 "C93": "Refuted: a series falling linearly to exactly 0 is accepted with initial rate -inf and offset NaN under the parameters of trend='logistic'. The partial theorems give the exact condition (start and end strictly between 0 and the capacity) and the stored pair in all five cases. Fewer than two dates are outside the model (fit_time stops with ValueError there, Python goes on with NaN).",
 "C94": "Holds for dates at equal distances (C94_days_partial, C94_nested_partial). Refuted for calendar months (C94_months_refuted): the unit of time is the mean distance of the observed dates, so each new month moves all changepoints but the first.",
 "C95": "Model of subclasses with arbitrary methods (Custom.v). The training table needs a row for the statement on _transform: an effect fitted on a table without rows remembers no columns.",
 "C96": "Calls are counted by instrumenting the classes, not the forecaster. The counts are about _fit_effects and _transform_effects; that fit and each forecast call the latter once is in Forecaster.v.",
 "C97": "C97_mean_partial: trends that are not vectors, effects with a mode. C97_library covers all trends and effects of the library, and so justifies that Likelihood.v adds equal shapes only. Refuted for effects without a mode returning vectors, and for trends that are vectors, which BaseAdditiveOrMultiplicativeEffect.predict turns into columns while the mean keeps the vector.",
 "C98": "C98_elsewhere: either class, any trend and likelihood. The expected observation (C98_normal, C98_gamma, C98_negbinomial, C98_hierarchical) is stated for flat and piecewise trends of one series and piecewise trends of several; for gamma and negative binomial where it is above the threshold of _to_positive. Both scenarios are evaluated with the same latent values; nothing is said about the random draws of an engine that sees two different models.",
 "C99": "sktime's own vectorisation of fit and predict is modelled from its documented behaviour; predict_all_sites_samples is not included.",
 "C100": "Densities of the distributions are an arbitrary function of parameters and value; numpyro's change of variables for constrained sites is not modelled. The distribution of the observations is the subject of C36 and C46. C100_silent is stated without a feature transformer; C92 relates fits and forecasts with one to those on the transformed data.",
 "C101": "Stated without a feature transformer (a transformer sees the units). The values are real numbers: rounding of floats is not modelled. Priors are not converted, so the posteriors of the two models differ unless the priors of the unit parameters are changed accordingly.",
 "C102": "[covers] asks that X has one row per series and requested date, series after series, which is how sorted panels look; other dates may also be in X. C102_transformed covers feature transformers of the hierarchical class when the forecast is given columns; flat trends of panels are left out.",
 "C103": "Proved for the formula the code computes. The two formulas of the documentation are refuted on a concrete forecaster: the first has the indicator of the wrong changepoints and a wrong offset correction, the second has the bends one step later than the code. With the indicator of the passed changepoints and the correction -(kappa - 1) delta the first one holds (C103_original_partial); at whole steps, with knots one step earlier, the second one holds (C103_spline_partial).",
 "C104": "Single series in the univariate class (a univariate panel is fitted series by series, see the claims about panels) and panels in the hierarchical class with piecewise trend, with or without exogenous data and feature transformer; unshared columns are copied for every series and a seasonality has its own coefficients for every series. The Hill formula is stated for positive inputs and half maxima, and for input zero, where the code's guarded power gives the whole maximum effect instead of zero.",
 "C105": "Proved for both classes in training and forecast, with the distributions that the code has. Two documented details are refuted: below sums of about -100000 (in units of the scale) the mean is cut off at 1e-10, above phi, and the negative binomial's variance falls when sigma grows instead of being sigma^2. For panels the scale factor is stated as it is; that it does not give the intended covariance is C49. C105_training assumes that no feature transformer is configured if the trend is flat.",
 "C106": "Which columns each effect receives is proved for all fits. The intended statement holds for shared columns and for starts_with; patterns without $ select all copies of what they match. It fails for exact(column) on an unshared column, which receives no copy while the copies go to the default effect (C106_exact_refuted), and for patterns which reach the series label in the copy's name (C106_labels_refuted). C106_columns, C106_default, C106_shared, C106_open_partial and C106_starts_with_partial are stated without a feature transformer; C92 relates fits and forecasts with one to those on the transformed data.",
 "C107": "Text of the messages is not modelled, only what they name. Turning warnings into errors is not modelled. C107_univariate, C107_hierarchical and C107_exact are stated without a feature transformer; C92 relates fits and forecasts with one to those on the transformed data.",
 "C108": "Proved for frames whose columns are in alphabetical order; refuted otherwise, because the default effect gets its columns sorted (Index.difference) while patterns keep the order of X, so the same coefficients belong to other columns. C108_fit_partial is stated without a feature transformer; C92 relates fits and forecasts with one to those on the transformed data.",
 "C109": "Two consequences worth knowing: a forecaster given a trend object ignores its own changepoint, offset and capacity options without notice (C109_object), and with trend=\"flat\" the option changepoint_prior_scale is the scale of the prior of the level, which its documentation does not mention.",
 "C110": "The panel theorems are stated for at least two series, trends with scalar priors (those built from options) and horizons in increasing order; C105 gives the distribution of the observations in each draw.",
 "C111": "Warnings differ (C107). Effects that take part without columns (Fourier terms, lift experiments) are outside the statement.",
 "C112": "Composes C103 (trend), C104 (effects), C110 (draws) and the labelling and rescaling of the table. C112_flat is the version for flat trends of one series. C112_transformed covers panels with feature transformers and C112_without_columns panels without columns. Univariate panels (fitted series by series) and flat trends of panels are outside the statement. Success of predict_all_sites is a hypothesis here; C78_components proves it for well-posed single-series problems.",
 "C113": "Full. A series that is zero throughout keeps scale 1 in any units (C05_zero_series_refuted), so panels with such a series are excluded by the statement. Totals of the forecasts are sums of the series (C51). For Prophetverse on panels only point forecasts are labelled with the series (C58), and lift experiments are excluded.",
 "C114": "Full, for fits that succeed. A new pattern has to be one the model can read, since an unreadable pattern fails. Which columns a pattern selects is C41, C95 and C106. C114_univariate and C114_hierarchical are stated without a feature transformer; C92 relates fits and forecasts with one to those on the transformed data.",
 "C115": "Full. That a sampler returns draws which correspond under the new names is a hypothesis of C115_forecast, since numpyro may use other random numbers for other names; C115_fit, C115_predict and C115_run need no such hypothesis. Names with slashes and names the library uses are excluded by the statement; see C41 for clashes.",
 "C116": "Generalises C102 to different exogenous data. One row per series and requested date is assumed ([covers]). C116_transformed covers feature transformers of the hierarchical class which return columns; flat trends of panels are left out.",
 "C117": "One direction: a forecaster without experiments may fit where one with them fails (an experiment rejects panels). Experiments on effects without columns are left out: such an effect is skipped, the experiment around it is not.",
 "C118": "Partial because the full property is false: _exponent_safe replaces the power of zero by zero, so a Hill effect has its maximum at input zero and is strictly lower at every positive input (C118_hill_zero_refuted; with the normal likelihood the expected observation falls too). C118_forecast_partial covers everything else for single series, C118_panel for panels (linear effects and seasonalities, the only ones that fit on panels) and C118_transformed for panels with a feature transformer. A multiplicative effect needs a nonnegative trend.",
 "C119": "Partial because the full property is false: the coefficients of an effect are numbered by the order of the columns it selects, so training data with reordered columns give models in which the same parameter belongs to another column (C119_order_refuted). Prediction has no such restriction (C119_forecast, with C119_known_univariate and C119_known_hierarchical saying which columns are known). Training is the same when every listed effect selects its columns in the same order (C119_training_partial, C119_refit_partial); the default effect sorts its columns and needs no hypothesis. C119_known_univariate, C119_known_hierarchical, C119_training_partial and C119_refit_partial are stated without a feature transformer; C92 relates fits and forecasts with one to those on the transformed data.",
 "C120": "Proved for both classes (C120_forecast, C120_panel; with a feature transformer C120_transformed). The two forecasts may be one and the same. Additive effects and the normal likelihood give the exact difference of expected observations.",
 "C121": "Proved for both classes (C121_forecast, C121_panel; with a feature transformer C121_transformed), and for logistic trends of one series (C121_saturated) and of every series of a panel (C121_panel_saturated).",
 "C122": "Proved for the univariate class (C122_forecast) and for panels with piecewise trends, one row per series and date (C122_panel; with a feature transformer C122_transformed); the effects may be listed in another order and the forecasts may have different horizons.",
 "C123": "Proved for the trend of both classes (C123_trend, C123_panel_trend, C123_beyond) and for expected observations (C123_forecast, C123_panel; with a feature transformer C123_transformed)."
}