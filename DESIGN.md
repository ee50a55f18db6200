# Formal model of prophetverse in Rocq — design

## 1. What is modelled

The model follows `/repo/src/prophetverse` function by function.  Every definition of a
`Model/*.v` file carries a comment with the file and lines it models and the simplifications made.

| theory (`rocq/theories/Model`) | code |
|---|---|
| `Base`, `Num`, `XFloat` | results/exceptions, Python dicts, list and real-number helpers; reals with infinities and NaN |
| `Arr` | n-dimensional arrays: shape + row-major data; reshape, `.T`, flatten, matmul |
| `Frame` | data frames with (series levels, time) index; `utils/multiindex.py`, `utils/frame_to_array.py` |
| `Regex` | Python `re` subset: parser, matcher; `utils/regex.py`, `_match_columns` |
| `Expand` | `sktime/_expand_column_per_level.py` and its use in `multivariate.py` |
| `Trend` | computations of `effects/trend/base.py`, `piecewise.py`, `flat.py` |
| `Prog` | numpyro programs, scopes, traces, `Predictive` |
| `Effect` | `effects/base.py`, `linear.py`, `log.py`, `hill.py`, `lift_experiment.py`, `fourier.py`, `utils/algebric_operations.py` |
| `TrendProg` | trend classes as effects: fit, transform, predict |
| `Likelihood` | `models.py`, `distributions.py` |
| `Scale` | `_set_y_scales`, `_scale_y`, `_inv_scale_y` of `sktime/base.py` |
| `Aggregate` | sktime's `Aggregator`, `sort_index` |
| `Predict` | sample frames: `predict_samples`, `_predict`, `predict_all_sites`, `predict_all_sites_samples`, `_predict_quantiles`, `periodindex_to_multiindex`, `_vectorize_predict_method` |
| `Engine` | `engine.py` |
| `Forecaster` | `_fit_effects`, `_transform_effects`, `_get_trend_model`, `_fit`, `_get_fit_data`, `_get_predict_data`, the prediction methods of the univariate and hierarchical forecasters |
| `Params` | constructor validation, setters of effects, `sktime/seasonality.py` |
| `History` | sequences of fit, update and predict calls (what sktime's base class does around `_fit`, `_predict`) |
| `Shared` | objects passed by reference: a heap of effects; several forecasters with shared trends and transformers |
| `Estimator` | constructors of all classes, clone, the optimiser, `var_names`, `plot_trace` |
| `Warn` | `_fit_effects` with the warnings it issues |
| `Vectorized` | the univariate class on panels: sktime's clones per series, `_vectorize_predict_method` |
| `Custom` | effects written by users (arbitrary `_fit`, `_transform`, `_predict`) under `effects/base.py` and the forecaster's loops; the mean with numpy broadcasting |

`Spec/*.v` holds the vocabulary of the theorem statements that does not belong to the code (hinge
function, coherence, "interpolates", "agree on the horizon", "same up to units", "alone").
`Facts/*.v` holds all proofs and the concrete examples; `Props/*.v` holds the property theorems, each
with `Print Assumptions` and an `Example` of a concrete case meeting its hypotheses.
`tools/manifest.py` builds `MANIFEST.json` from the theorem names in `Props`; a claim counts as
"partial" as soon as one of its theorems is called `_partial` or `_refuted`.

### Numbers
All data values are Coq reals `R`.  Floating point rounding is **not** modelled.  Where NaN or
infinities decide the control flow (loss check, logistic suggestion, fillna, lift mask,
hyperparameter validation) an explicit extended type is used.  Elsewhere a computation that would put
a NaN or an infinity into an array stops with the pseudo exception `NotFinite`.  Integer quantities (timestamps in
nanoseconds, period ordinals, shapes) are `Z`/`nat`.

### Frames
A frame is a list of rows `(path, time, values)` plus column names and the number of series
levels; `path` is the tuple of index levels except time.  Pandas operations used by the code
(`loc` with a boolean mask, `isin`, `droplevel().unique()`, column selection, `reindex`,
`groupby.agg`, `sort_index`, `MultiIndex.from_product`, `Index.difference`, `str.match`) are
written as Gallina functions with the pandas semantics.

### Exceptions
`res A = Ok a | Err e`; every `raise` and every implicit failure that is reachable (missing
column, unbound local, missing attribute, reshape of a wrong size) is an `Err`.

### Probabilistic programs
A numpyro model is interpreted under an *environment* giving a value for every sample site (what
`Predictive` substitutes for a posterior draw); running it returns the trace: sites with their
distributions, deterministic values and the observation distribution.  Inference (SVI, NUTS) and
random sampling are *arbitrary functions* quantified in the theorems (Section variables closed
over), never axioms.

### External code, taken as given
pandas/numpy/jax primitives (as above), sktime's `ForecastingHorizon` (relative: cutoff + k,
absolute: unchanged), `Aggregator` (adds for each aggregate node the sum of the bottom rows below it,
removes old totals first; which aggregate nodes are kept is an arbitrary predicate), `Detrender`
(least squares line), `FourierFeatures` (columns sin/cos(2 pi k n / sp)), skbase `clone`
(fresh object with cloned parameters), the sktime fit/update/predict wrapper (`fit` resets and stores
the data, `update` stores `new.combine_first(old)` and calls `fit` again if asked to, prediction needs
a fitted estimator), numpyro's handlers (`scope` prefixes names with "name/", a repeated sample site is
an error, `plate` of size 0 is an error), `Predictive` (one run of the model per posterior sample).

### Not modelled
Floating point; jit/devices; the numerical behaviour of optimisers and samplers; probability
theory beyond the moments stated; plotting; pandas dtype handling; column labels that are not
strings; duplicate column labels in X; time zones; warnings of libraries and the text
of warnings.

## 2. Trusted base
* Coq 8.16.1 kernel (`coqc`, re-checked with `coqchk`).
* Axioms: only those of the standard library's real numbers, as listed by `Print Assumptions`:
  `ClassicalDedekindReals.sig_forall_dec`, `ClassicalDedekindReals.sig_not_dec`,
  `FunctionalExtensionality.functional_extensionality_dep`, and `Classical_Prop.classic` where lemmas on
  continuity, trigonometry or logarithms are used (also through definitions such as `Rpower`, `sin`).
  Theorems that do not mention reals are closed under the global context.
* The correspondence between the Gallina definitions and the Python text (comments in `Model`).
  `Facts/UpstreamTests.v` checks part of it: the project's own unit tests with concrete expected
  values, restated as examples about the model (its header says which tests cannot be expressed).
* The assumed semantics of external code listed above.

## 3. Tests of the theorems
`seeded/LOG.jsonl` lists edits of single definitions of the model, made in a scratch copy, one line per
attempt.  Lines `m...` are written by hand against one claim (for refuted claims also the repaired
program, which must break the refutation); lines `a...` are random single-token edits.  `outcome` is

* `killed`: a theorem of the claim no longer goes through (for `a...`: any theorem);
* `killed by other claims only`: the intended claim did not notice; the note says what was done;
* `survived`: everything still compiles; the note says whether the edit is equivalent or a gap;
* `stillborn`: the edited model is ill-typed, so nothing was tested; `not run`: the tool failed.

`theorems_failed` lists the theorems whose proof fails or rests on a lemma whose proof fails.  This is
weaker than a counterexample: a proof can break although the statement remains true.

## 4. Results
"full" = proved as stated, "refuted" = the code violates the property; a counterexample is proved
(`*_refuted`) together with the strongest true part (`*_partial`).

| id | result |
|---|---|
| C01 | full: induction over rows; per-series scale looked up by path |
| C02 | full: max over absolute values; replacement of 0 by 1 |
| C03 | refuted: scale 0 becomes the *int* 1, `isinstance(_, float)` fails, attribute error; partial: non-zero floats and panels succeed |
| C04 | full: unfold + `to_positive` |
| C05 | partial: every history, both classes, arbitrary engine; refuted for panels with a series that is zero throughout |
| C06 | full: telescoping sum of differences |
| C07 | full: the same |
| C08 | full (order, exactness) + refutation of injectivity |
| C09 | full: characterisation of `arange` |
| C10 | partial + refuted (1.0 means one time point; r larger than the history; negative r drops one point more) |
| C11 | full |
| C12 | refuted off the integer grid; partial: on the grid equals the hinge function |
| C13 | full: block decomposition of the concatenated coefficient vector |
| C14 | full |
| C15 | refuted (functional update discarded: location is always 0) |
| C16 | offset full, rate refuted (sign) |
| C17 | full: exp/ln algebra |
| C18 | refuted: detrended line can be negative; partial: without detrending positive data below capacity never fails |
| C19 | refuted (a zero start replaces all starts by 1e-8); partial without zero starts |
| C20 | full |
| C21 | constant: full; prior moments: for positive mean; refuted for mean <= 0 |
| C22 | full: as C13 |
| C23 | partial (all classes calling the base constructor) + refuted for LinearFourierSeasonality |
| C24 | full; SeenSpec.v and SeenFacts.v for the table the effects are given (feature transformers, both forecasters) |
| C25 | full |
| C26 | values full; invalid modes refuted for LinearFourierSeasonality (accepted at construction) |
| C27 | full |
| C28 | full |
| C29 | full |
| C30 | refuted: value at zero is max_effect |
| C31 | full |
| C32 | full given FourierFeatures |
| C33 | partial + refuted for LinearFourierSeasonality (stale per-series expansion) |
| C34 | full |
| C35 | full |
| C36 | full |
| C37 | full; for whole forecasters RelistSpec.v, RelistFacts.v |
| C38 | full |
| C39 | full |
| C40 | full; SeenSpec.v, SeenFacts.v as for C24 |
| C41 | refuted by duplicate names and by the name of the default effect; partial for distinct names; SeenFacts.v as for C24 |
| C42 | partial for metacharacter-free strings; refuted otherwise |
| C43 | partial when no other name matches; refuted by prefix names |
| C44 | full under distinct generated names |
| C45 | refuted; partial for names without the separators |
| C46 | full |
| C47 | full |
| C48 | full |
| C49 | refuted: scale_tril is D L D; partial: actual covariance |
| C50 | full |
| C51 | full |
| C52 | full |
| C53 | refuted for the observation site of the multivariate model; partial for all sites stored series-major |
| C54 | refuted; exact factor proved |
| C55 | refuted; partial for full crossings |
| C56 | full |
| C57 | refuted (order of series in X); partial for a sorted X |
| C58 | isolation full; labels refuted |
| C59 | full |
| C60 | full |
| C61 | univariate full; hierarchical refuted after update without refit; partial otherwise |
| C62 | full, over an arbitrary engine |
| C63 | univariate full; hierarchical refuted (hash order of a set of strings) |
| C64 | partial (no NaN) + refuted for NaN |
| C65 | effects full; trend objects and transformers refuted; isolation proved for forecasters that share none |
| C66 | full |
| C67 | full |
| C68 | full |
| C69 | partial for non-empty lists; refuted for the empty list |
| C70 | refuted; partial if columns are kept |
| C71 | full for slash-free non-reserved names |
| C72 | partial for X with the series of the target only; refuted otherwise |
| C73 | full, for transformers that forget when fitted |
| C74 | partial (one series; balanced panels with piecewise trends); flat trend with several series refuted |
| C75 | full without feature transformer; panels with equal columns and series; with a feature transformer for the frames it returns (HorizonTransformed.v, HorizonTransformedExamples.v) |
| C76 | partial: ascending index (one series), X covering the training dates or fully crossed panel; refuted for unbalanced hierarchies |
| C77 | full for normal, gamma (above the threshold) and hierarchical models with built-in trends; refuted for counts (columns are in scaled units) |
| C78 | full for one series; TotalSites.v adds the component tables, TotalTransformed.v and TotalTransformedSites.v feature transformers that keep the columns of X |
| C79 | full |
| C80 | full; documented defaults and parameters of the older classes refuted |
| C81 | full; optax without keyword arguments refuted |
| C82 | refuted |
| C83 | full for the modelled pattern syntax |
| C84 | least squares full; suggested rate refuted |
| C85 | full for built-in trends without feature transformer |
| C86 | full for library trends without feature transformer; the size of numpyro plates does not enter the model of the density |
| C87 | full for Prophetverse, and for HierarchicalProphet with one series or a piecewise trend; refuted for the flat trend with several series |
| C88 | full for date and period indexes |
| C89 | full for lists of the right length; a wrong length is not rejected (refuted) |
| C90 | full: whole pipeline commutes with moving dates, for clocks with equal steps |
| C91 | full: no error on well-posed panels; one row per series or kept total and date of the horizon; component tables have one row per series and date |
| C92 | TransformerSpec.v, TransformerFacts.v, TransformerTotal.v, TransformerPanel.v, TransformerPanelExamples.v, TransformerBare.v, TransformerBareExamples.v, TransformerIdentity.v, TransformerIdentityExamples.v, TransformerRaises.v: fitting and forecasting with a transformer equal fitting and forecasting without it on the returned tables; totality with transformers |
| C93 | refuted: only NaN is tested, a series ending at 0 or at the capacity gets infinite or NaN initial values; partial: exact condition for numbers, and the stored values in every case |
| C94 | Changepoints stay where they are when the history grows: same calendar days and nested trends for dates at equal distances; refuted for months, whose average distance changes |
| C95 | CustomSpec.v, CustomFacts.v, CustomViews.v, CustomInstance.v: arguments of the methods, independence of the rest of the table, library effects as instances |
| C96 | CustomCalls.v: induction over the sequence of preparations with call logs in the attributes |
| C97 | CustomMean.v: reshape fixes the shape; broadcasting of equal shapes is addition; library trends are columns or tensors; counterexamples computed |
| C98 | CounterFrames.v relates frames that agree on some columns through bottom level, expansion and selection; CounterFacts.v relates two runs site by site; CounterForecast.v joins them per likelihood |
| C99 | VectorizedFacts.v, VectorizedProps.v, VectorizedTimes.v: `mapM` over the series; the rows of a series through `get_multiindex_loc`; dates through sorting and inverse scaling |
| C100 | DensityFacts.v, DensitySilent.v, DensityForecaster.v: the trace is the list of evaluated sites (C71), split at the mean; induction over the effects; zero data through `transform_effects` |
| C101 | RescaleFrames.v (a relation between frames kept by every frame operation), RescaleEffects.v (prepared data), RescalePredict.v (each effect, on programs), RescaleForecaster.v (whole models through `fit` and `predict`) |
| C102 | OverlapFacts.v (relations between programs), OverlapFrames.v (selecting dates of covering frames), OverlapTrend.v, OverlapModel.v (both model functions), OverlapNone.v (frames without columns), OverlapForecaster.v (forecasts), OverlapTransformed.v (feature transformers of panels), OverlapTransformedExamples.v |
| C103 | DocsSpec.v (formulas), DocsTrend.v (values and priors of piecewise trends), DocsForecaster.v (both classes), DocsTotal.v (forecasts of well-posed problems run), DocsFormula.v (documented formulas), DocsExamples.v; DocsPriorSpec.v, DocsPriors.v (training, offsets, capacities), DocsOffset.v (where the offset is expected), DocsTrained.v |
| C104 | ResponseSpec.v (formulas and priors), ResponseFacts.v (effects row by row), ResponseEffects.v (harmonics, fitted state), ResponseForecaster.v (single series), ResponsePanel.v, ResponseRead.v (panel inputs), ResponseHierarchical.v (panels), ResponseExamples.v, ResponseTraining.v (training) |
| C105 | ObservedSpec.v (documented distributions), ObservedFacts.v (programs), ObservedForecaster.v (forecasters), ObservedDocs.v, ObservedRefuted.v (differences from the documentation), ObservedExamples.v |
| C106 | CopySpec.v (columns offered to effects), CopyFacts.v, CopyExamples.v |
| C107 | Warn.v (the loop with its warnings), WarnSpec.v, WarnFacts.v; frames of HierarchicalProphet through CopyFacts.v |
| C108 | DefaultSpec.v, DefaultFacts.v: `uncovered` is the filtered list of columns when these are sorted |
| C109 | OptionSpec.v, OptionFacts.v: programs related by `twin`, equal up to the distributions at given sites; OptionFit.v: fits and forecasts preserve the relation |
| C110 | DrawSpec.v, DrawFacts.v: stacking and transposing keeps draws together; DrawPanel.v: series of a panel; DrawExamples.v, DrawPanelExamples.v |
| C111 | IdleSpec.v, IdleFacts.v: an effect without columns leaves no trace in the prepared data and the models |
| C112 | TableSpec.v, TableFacts.v (one series), TableFlat.v (flat trend), TablePanel.v (panels), TableTransformed.v (feature transformers, no columns), TableExamples.v, TableFlatExamples.v, TableTransformedExamples.v |
| C113 | CurrencySpec.v, CurrencyFacts.v (scales and aggregates per series), CurrencyForecaster.v (hierarchical class), CurrencyVectorized.v (univariate class, from C05), CurrencyExamples.v |
| C114 | SelectSpec.v, SelectFacts.v (the fit with other patterns, from the fitted columns of C41 and C106), SelectExamples.v |
| C115 | RenameSpec.v, RenameFacts.v (names, dictionaries, programs), RenameModel.v (models, fitted effects), RenameForecaster.v (both classes), RenameExamples.v |
| C116 | CellSpec.v, CellFacts.v (entries of arrays), CellFrames.v (rows of frames, copied columns), CellModel.v (effects, models), CellForecaster.v (both classes), CellTransformed.v (feature transformers of panels), CellExamples.v |
| C117 | LiftSpec.v, LiftFacts.v (programs without observations, runs, densities), LiftForecaster.v (fits, data, forecasts), LiftExamples.v |
| C118 | UpwardSpec.v, UpwardFacts.v (monotone formulas, links, sums), UpwardForecaster.v, UpwardPanel.v, UpwardExamples.v; feature transformers on panels: UpwardTransformed.v, TransformedExamples.v |
| C119 | ByNameSpec.v, ByNameFacts.v (frames which agree in named columns), ByNameForecaster.v, ByNameFit.v, ByNameKnown.v, ByNameExamples.v |
| C120 | SeasonSpec.v, SeasonForecaster.v, SeasonPanel.v, SeasonTransformed.v, SeasonExamples.v |
| C121 | LimitSpec.v, LimitFacts.v (single effects, sums), LimitForecaster.v, LimitPanel.v (logistic trends of panels), LimitTransformed.v, LimitExamples.v |
| C122 | AddedSpec.v, AddedForecaster.v, AddedExamples.v; panels: AddedPanel.v, PanelModel.v (a well-posed panel has a model which runs), AddedPanelExamples.v, AddedTransformed.v |
| C123 | OnwardSpec.v, OnwardForecaster.v, OnwardTransformed.v, OnwardExamples.v |
