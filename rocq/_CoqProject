-Q theories Verif
theories/Model/Aggregate.v
theories/Model/Arr.v
theories/Model/Base.v
theories/Model/Custom.v
theories/Model/Effect.v
theories/Model/Engine.v
theories/Model/Estimator.v
theories/Model/Expand.v
theories/Model/Forecaster.v
theories/Model/Frame.v
theories/Model/History.v
theories/Model/Likelihood.v
theories/Model/Num.v
theories/Model/Params.v
theories/Model/Predict.v
theories/Model/Prog.v
theories/Model/Regex.v
theories/Model/Scale.v
theories/Model/Shared.v
theories/Model/Tensors.v
theories/Model/Trend.v
theories/Model/TrendProg.v
theories/Model/Vectorized.v
theories/Model/Warn.v
theories/Model/XFloat.v
theories/Spec/AddedSpec.v
theories/Spec/AlignSpec.v
theories/Spec/ByNameSpec.v
theories/Spec/CellSpec.v
theories/Spec/ComponentSpec.v
theories/Spec/CopySpec.v
theories/Spec/CounterSpec.v
theories/Spec/CurrencySpec.v
theories/Spec/CustomSpec.v
theories/Spec/DefaultSpec.v
theories/Spec/DensitySpec.v
theories/Spec/DocsPriorSpec.v
theories/Spec/DocsSpec.v
theories/Spec/DrawSpec.v
theories/Spec/EffectSpec.v
theories/Spec/EstimatorSpec.v
theories/Spec/ForecasterSpec.v
theories/Spec/FrameSpec.v
theories/Spec/GrowSpec.v
theories/Spec/HistorySpec.v
theories/Spec/HorizonSpec.v
theories/Spec/IdleSpec.v
theories/Spec/InitialSpec.v
theories/Spec/InsampleSpec.v
theories/Spec/LiftSpec.v
theories/Spec/LimitSpec.v
theories/Spec/LineSpec.v
theories/Spec/ObservedSpec.v
theories/Spec/OnwardSpec.v
theories/Spec/OptionSpec.v
theories/Spec/OverlapSpec.v
theories/Spec/PanelSpec.v
theories/Spec/ParamsSpec.v
theories/Spec/PatternSpec.v
theories/Spec/PosteriorSpec.v
theories/Spec/PredictSpec.v
theories/Spec/ProgSpec.v
theories/Spec/RaiseSpec.v
theories/Spec/RegexSpec.v
theories/Spec/RelistSpec.v
theories/Spec/RenameSpec.v
theories/Spec/RescaleSpec.v
theories/Spec/ResponseSpec.v
theories/Spec/ScaleSpec.v
theories/Spec/SeasonSpec.v
theories/Spec/SeenSpec.v
theories/Spec/SelectSpec.v
theories/Spec/ShapeSpec.v
theories/Spec/SharedSpec.v
theories/Spec/ShiftSpec.v
theories/Spec/SingleSpec.v
theories/Spec/SiteSpec.v
theories/Spec/TableSpec.v
theories/Spec/TensorSpec.v
theories/Spec/TotalSpec.v
theories/Spec/TransformerSpec.v
theories/Spec/TrendSpec.v
theories/Spec/UnitsSpec.v
theories/Spec/UpwardSpec.v
theories/Spec/VectorizedSpec.v
theories/Spec/WarnSpec.v
theories/Facts/AddedExamples.v
theories/Facts/AddedForecaster.v
theories/Facts/AddedPanel.v
theories/Facts/AddedPanelExamples.v
theories/Facts/AddedTransformed.v
theories/Facts/AlignExamples.v
theories/Facts/AlignFacts.v
theories/Facts/AlignForecaster.v
theories/Facts/AlikeFacts.v
theories/Facts/ArrFacts.v
theories/Facts/BaseFacts.v
theories/Facts/ByNameExamples.v
theories/Facts/ByNameFacts.v
theories/Facts/ByNameFit.v
theories/Facts/ByNameForecaster.v
theories/Facts/ByNameKnown.v
theories/Facts/CellExamples.v
theories/Facts/CellFacts.v
theories/Facts/CellForecaster.v
theories/Facts/CellFrames.v
theories/Facts/CellModel.v
theories/Facts/CellTransformed.v
theories/Facts/CompleteFacts.v
theories/Facts/ComponentExamples.v
theories/Facts/ComponentFacts.v
theories/Facts/CopyExamples.v
theories/Facts/CopyFacts.v
theories/Facts/CounterExamples.v
theories/Facts/CounterFacts.v
theories/Facts/CounterForecast.v
theories/Facts/CounterFrames.v
theories/Facts/CurrencyExamples.v
theories/Facts/CurrencyFacts.v
theories/Facts/CurrencyForecaster.v
theories/Facts/CurrencyVectorized.v
theories/Facts/CustomCalls.v
theories/Facts/CustomExamples.v
theories/Facts/CustomFacts.v
theories/Facts/CustomInstance.v
theories/Facts/CustomMean.v
theories/Facts/CustomViews.v
theories/Facts/DefaultExamples.v
theories/Facts/DefaultFacts.v
theories/Facts/DensityExamples.v
theories/Facts/DensityFacts.v
theories/Facts/DensityForecaster.v
theories/Facts/DensitySilent.v
theories/Facts/DocsExamples.v
theories/Facts/DocsForecaster.v
theories/Facts/DocsFormula.v
theories/Facts/DocsOffset.v
theories/Facts/DocsPriors.v
theories/Facts/DocsTotal.v
theories/Facts/DocsTrained.v
theories/Facts/DocsTrend.v
theories/Facts/DrawExamples.v
theories/Facts/DrawFacts.v
theories/Facts/DrawPanel.v
theories/Facts/DrawPanelExamples.v
theories/Facts/EffectExamples.v
theories/Facts/EffectFacts.v
theories/Facts/EffectFourier.v
theories/Facts/EffectPredict.v
theories/Facts/EffectProps.v
theories/Facts/EngineExamples.v
theories/Facts/EngineFacts.v
theories/Facts/EstimatorFacts.v
theories/Facts/ExpandFacts.v
theories/Facts/ForecasterExamples.v
theories/Facts/ForecasterFacts.v
theories/Facts/ForecasterInv.v
theories/Facts/ForecasterProps.v
theories/Facts/ForecasterTransformer.v
theories/Facts/FrameFacts.v
theories/Facts/FrameProps.v
theories/Facts/GrowExamples.v
theories/Facts/GrowFacts.v
theories/Facts/HistoryExamples.v
theories/Facts/HistoryFacts.v
theories/Facts/HistoryRefit.v
theories/Facts/HistoryTimes.v
theories/Facts/HorizonExamples.v
theories/Facts/HorizonFacts.v
theories/Facts/HorizonTransformed.v
theories/Facts/HorizonTransformedExamples.v
theories/Facts/IdleFacts.v
theories/Facts/InitialFacts.v
theories/Facts/InsampleExamples.v
theories/Facts/InsampleFacts.v
theories/Facts/LiftExamples.v
theories/Facts/LiftFacts.v
theories/Facts/LiftForecaster.v
theories/Facts/LikelihoodFacts.v
theories/Facts/LimitExamples.v
theories/Facts/LimitFacts.v
theories/Facts/LimitForecaster.v
theories/Facts/LimitPanel.v
theories/Facts/LimitTransformed.v
theories/Facts/LineFacts.v
theories/Facts/LogisticFit.v
theories/Facts/MeanFacts.v
theories/Facts/MergeFacts.v
theories/Facts/ModelProps.v
theories/Facts/NumFacts.v
theories/Facts/ObservedDocs.v
theories/Facts/ObservedExamples.v
theories/Facts/ObservedFacts.v
theories/Facts/ObservedForecaster.v
theories/Facts/ObservedRefuted.v
theories/Facts/OnwardExamples.v
theories/Facts/OnwardForecaster.v
theories/Facts/OnwardTransformed.v
theories/Facts/OptionExamples.v
theories/Facts/OptionFacts.v
theories/Facts/OptionFit.v
theories/Facts/OrderFacts.v
theories/Facts/OverlapExamples.v
theories/Facts/OverlapFacts.v
theories/Facts/OverlapForecaster.v
theories/Facts/OverlapFrames.v
theories/Facts/OverlapModel.v
theories/Facts/OverlapNone.v
theories/Facts/OverlapTransformed.v
theories/Facts/OverlapTransformedExamples.v
theories/Facts/OverlapTrend.v
theories/Facts/PanelBottom.v
theories/Facts/PanelEffects.v
theories/Facts/PanelExamples.v
theories/Facts/PanelFit.v
theories/Facts/PanelForecast.v
theories/Facts/PanelGrid.v
theories/Facts/PanelModel.v
theories/Facts/PanelRuns.v
theories/Facts/PanelScale.v
theories/Facts/PanelSites.v
theories/Facts/PanelSitesExamples.v
theories/Facts/PanelTotalExamples.v
theories/Facts/PanelTrend.v
theories/Facts/ParamsFacts.v
theories/Facts/PatternFacts.v
theories/Facts/PosteriorFacts.v
theories/Facts/PredictFacts.v
theories/Facts/PredictProps.v
theories/Facts/ProgFacts.v
theories/Facts/QuantileFacts.v
theories/Facts/RaiseArrays.v
theories/Facts/RaiseFacts.v
theories/Facts/RaiseMore.v
theories/Facts/RaiseScale.v
theories/Facts/RegexFacts.v
theories/Facts/RelistFacts.v
theories/Facts/RenameExamples.v
theories/Facts/RenameFacts.v
theories/Facts/RenameForecaster.v
theories/Facts/RenameModel.v
theories/Facts/RescaleEffects.v
theories/Facts/RescaleExamples.v
theories/Facts/RescaleForecaster.v
theories/Facts/RescaleFrames.v
theories/Facts/RescalePredict.v
theories/Facts/ResponseEffects.v
theories/Facts/ResponseExamples.v
theories/Facts/ResponseFacts.v
theories/Facts/ResponseForecaster.v
theories/Facts/ResponseHierarchical.v
theories/Facts/ResponsePanel.v
theories/Facts/ResponseRead.v
theories/Facts/ResponseTraining.v
theories/Facts/ScaleFacts.v
theories/Facts/SeasonExamples.v
theories/Facts/SeasonForecaster.v
theories/Facts/SeasonPanel.v
theories/Facts/SeasonTransformed.v
theories/Facts/SeenFacts.v
theories/Facts/SelectExamples.v
theories/Facts/SelectFacts.v
theories/Facts/ShapeFacts.v
theories/Facts/SharedExamples.v
theories/Facts/SharedFacts.v
theories/Facts/ShiftFacts.v
theories/Facts/ShiftForecaster.v
theories/Facts/SingleFacts.v
theories/Facts/SiteFacts.v
theories/Facts/TableExamples.v
theories/Facts/TableFacts.v
theories/Facts/TableFlat.v
theories/Facts/TableFlatExamples.v
theories/Facts/TablePanel.v
theories/Facts/TableTransformed.v
theories/Facts/TableTransformedExamples.v
theories/Facts/TensorExamples.v
theories/Facts/TensorFacts.v
theories/Facts/TimeFacts.v
theories/Facts/TotalExamples.v
theories/Facts/TotalFacts.v
theories/Facts/TotalFit.v
theories/Facts/TotalForecast.v
theories/Facts/TotalSites.v
theories/Facts/TotalSitesExamples.v
theories/Facts/TotalTransformed.v
theories/Facts/TotalTransformedExamples.v
theories/Facts/TotalTransformedSites.v
theories/Facts/TotalTransformedSitesExamples.v
theories/Facts/TotalTrend.v
theories/Facts/TransformedExamples.v
theories/Facts/TransformerBare.v
theories/Facts/TransformerBareExamples.v
theories/Facts/TransformerFacts.v
theories/Facts/TransformerIdentity.v
theories/Facts/TransformerIdentityExamples.v
theories/Facts/TransformerPanel.v
theories/Facts/TransformerPanelExamples.v
theories/Facts/TransformerRaises.v
theories/Facts/TransformerTotal.v
theories/Facts/TrendComputed.v
theories/Facts/TrendExamples.v
theories/Facts/TrendFacts.v
theories/Facts/UnitsExamples.v
theories/Facts/UnitsFacts.v
theories/Facts/UnitsForecaster.v
theories/Facts/UnitsHistory.v
theories/Facts/UpstreamTests.v
theories/Facts/UpwardExamples.v
theories/Facts/UpwardFacts.v
theories/Facts/UpwardForecaster.v
theories/Facts/UpwardPanel.v
theories/Facts/UpwardTransformed.v
theories/Facts/VectorizedExamples.v
theories/Facts/VectorizedFacts.v
theories/Facts/VectorizedProps.v
theories/Facts/VectorizedTimes.v
theories/Facts/WarnExamples.v
theories/Facts/WarnFacts.v
theories/Props/PropAdded.v
theories/Props/PropAlign.v
theories/Props/PropByName.v
theories/Props/PropCell.v
theories/Props/PropColumns.v
theories/Props/PropComponents.v
theories/Props/PropCopy.v
theories/Props/PropCounter.v
theories/Props/PropCurrency.v
theories/Props/PropCustom.v
theories/Props/PropDefault.v
theories/Props/PropDensity.v
theories/Props/PropDocs.v
theories/Props/PropDocsTraining.v
theories/Props/PropDraw.v
theories/Props/PropEffects.v
theories/Props/PropEngine.v
theories/Props/PropEstimator.v
theories/Props/PropForecaster.v
theories/Props/PropFrames.v
theories/Props/PropGrow.v
theories/Props/PropHistory.v
theories/Props/PropHorizon.v
theories/Props/PropIdle.v
theories/Props/PropInitial.v
theories/Props/PropInsample.v
theories/Props/PropLift.v
theories/Props/PropLimit.v
theories/Props/PropLine.v
theories/Props/PropModel.v
theories/Props/PropObserved.v
theories/Props/PropOnward.v
theories/Props/PropOption.v
theories/Props/PropOverlap.v
theories/Props/PropPanel.v
theories/Props/PropParams.v
theories/Props/PropPattern.v
theories/Props/PropPosterior.v
theories/Props/PropPredict.v
theories/Props/PropRaise.v
theories/Props/PropRaiseArrays.v
theories/Props/PropRaiseMore.v
theories/Props/PropRaiseScale.v
theories/Props/PropRelist.v
theories/Props/PropRename.v
theories/Props/PropRescale.v
theories/Props/PropResponse.v
theories/Props/PropScale.v
theories/Props/PropSeason.v
theories/Props/PropSeen.v
theories/Props/PropSelect.v
theories/Props/PropShape.v
theories/Props/PropShared.v
theories/Props/PropShift.v
theories/Props/PropSingle.v
theories/Props/PropTable.v
theories/Props/PropTensors.v
theories/Props/PropTotal.v
theories/Props/PropTransformer.v
theories/Props/PropTrend.v
theories/Props/PropUnits.v
theories/Props/PropUpward.v
theories/Props/PropVectorized.v
theories/Props/PropWarn.v
