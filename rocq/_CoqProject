-Q theories Verif
theories/Model/AxisSet.v
theories/Model/Base.v
theories/Model/Check.v
theories/Model/ChiPlot.v
theories/Model/Combine.v
theories/Model/Config.v
theories/Model/ConfigFile.v
theories/Model/Crash.v
theories/Model/DSExtract.v
theories/Model/Decay.v
theories/Model/FillScripts.v
theories/Model/FillSpectrum.v
theories/Model/Fit.v
theories/Model/FitConfig.v
theories/Model/FitGrid.v
theories/Model/FitLimit.v
theories/Model/FitParam.v
theories/Model/FitPrepare.v
theories/Model/FloatArray.v
theories/Model/FloatAxis.v
theories/Model/FloatFill.v
theories/Model/FloatShrink.v
theories/Model/GridProject.v
theories/Model/Heap.v
theories/Model/Limit.v
theories/Model/LimitStore.v
theories/Model/Logging.v
theories/Model/Minimise.v
theories/Model/NDArray.v
theories/Model/Param.v
theories/Model/Plot.v
theories/Model/PlotGrab.v
theories/Model/PreConv.v
theories/Model/PreMade.v
theories/Model/PyStr.v
theories/Model/Resolution.v
theories/Model/Results.v
theories/Model/Scripts.v
theories/Model/Shift.v
theories/Model/Smear.v
theories/Model/Spectra.v
theories/Model/Statistics.v
theories/Model/Store.v
theories/Model/TestStat.v
theories/Model/Weights.v
theories/Proofs/AddUp.v
theories/Proofs/AxisSetLemmas.v
theories/Proofs/CheckLemmas.v
theories/Proofs/ChiPlotLemmas.v
theories/Proofs/CombineLemmas.v
theories/Proofs/ConfigFileLemmas.v
theories/Proofs/ConfigLemmas.v
theories/Proofs/CrashLemmas.v
theories/Proofs/CutPosition.v
theories/Proofs/DecayLemmas.v
theories/Proofs/DeriveExt.v
theories/Proofs/DictLemmas.v
theories/Proofs/EventLemmas.v
theories/Proofs/ExtLemmas.v
theories/Proofs/ExtractLemmas.v
theories/Proofs/FileLemmas.v
theories/Proofs/FillLemmas.v
theories/Proofs/FillScriptLemmas.v
theories/Proofs/FitCheck.v
theories/Proofs/FitKinds.v
theories/Proofs/FitLemmas.v
theories/Proofs/FitMethods.v
theories/Proofs/FitParamLemmas.v
theories/Proofs/FitPictureLemmas.v
theories/Proofs/FitPrep.v
theories/Proofs/FitRun.v
theories/Proofs/FitScan.v
theories/Proofs/FitSetLemmas.v
theories/Proofs/FitSetReady.v
theories/Proofs/FloatAxisCentres.v
theories/Proofs/FloatAxisLemmas.v
theories/Proofs/FloatCount.v
theories/Proofs/FloatLemmas.v
theories/Proofs/FloatLink.v
theories/Proofs/FloatNear.v
theories/Proofs/FloatRun.v
theories/Proofs/FloatScale.v
theories/Proofs/FloatShrinkLemmas.v
theories/Proofs/FloatSums.v
theories/Proofs/GaussIntegral.v
theories/Proofs/GridLemmas.v
theories/Proofs/GridPointLemmas.v
theories/Proofs/GridProjectLemmas.v
theories/Proofs/HeapLemmas.v
theories/Proofs/HomogLemmas.v
theories/Proofs/LimitBins.v
theories/Proofs/LimitFits.v
theories/Proofs/LimitFitsBins.v
theories/Proofs/LimitLemmas.v
theories/Proofs/LimitScan.v
theories/Proofs/LimitStoreLemmas.v
theories/Proofs/LimitWidths.v
theories/Proofs/LoadShape.v
theories/Proofs/LoggingLemmas.v
theories/Proofs/ManyLimits.v
theories/Proofs/ManyScan.v
theories/Proofs/MinimiseLemmas.v
theories/Proofs/NDArrayLemmas.v
theories/Proofs/NDProjectLemmas.v
theories/Proofs/NameLemmas.v
theories/Proofs/OldFile.v
theories/Proofs/OpsLemmas.v
theories/Proofs/ParamLemmas.v
theories/Proofs/ParamMore.v
theories/Proofs/Penalty.v
theories/Proofs/PlotFloatLemmas.v
theories/Proofs/PlotGrabLemmas.v
theories/Proofs/PlotLemmas.v
theories/Proofs/PreConvLemmas.v
theories/Proofs/PreMadeLemmas.v
theories/Proofs/PreMadeRun.v
theories/Proofs/ProjectLemmas.v
theories/Proofs/QcLemmas.v
theories/Proofs/RaiseLemmas.v
theories/Proofs/ReadLemmas.v
theories/Proofs/RebinLemmas.v
theories/Proofs/RebinProject.v
theories/Proofs/ResolutionLemmas.v
theories/Proofs/ResultLemmas.v
theories/Proofs/ResultsLemmas.v
theories/Proofs/RoiLemmas.v
theories/Proofs/RootLemmas.v
theories/Proofs/ScriptLemmas.v
theories/Proofs/ScriptMore.v
theories/Proofs/SearchLemmas.v
theories/Proofs/SearchMore.v
theories/Proofs/ShiftAxes.v
theories/Proofs/ShiftLemmas.v
theories/Proofs/ShrinkAny.v
theories/Proofs/ShrinkAxis.v
theories/Proofs/ShrinkLemmas.v
theories/Proofs/ShrinkProps.v
theories/Proofs/ShrinkSteps.v
theories/Proofs/SmearLemmas.v
theories/Proofs/SmearProject.v
theories/Proofs/StatLemmas.v
theories/Proofs/StatOrder.v
theories/Proofs/StatisticsBins.v
theories/Proofs/StatisticsLemmas.v
theories/Proofs/StoreLemmas.v
theories/Proofs/StoreNoWidth.v
theories/Proofs/StrLemmas.v
theories/Proofs/WeightsLemmas.v
theories/Properties/AddUp.v
theories/Properties/Axis.v
theories/Properties/AxisSet.v
theories/Properties/Check.v
theories/Properties/ChiPlot.v
theories/Properties/Combine.v
theories/Properties/Config.v
theories/Properties/Crash.v
theories/Properties/CutPosition.v
theories/Properties/Decay.v
theories/Properties/Extract.v
theories/Properties/Fill.v
theories/Properties/FillScripts.v
theories/Properties/FillSpectrum.v
theories/Properties/Fit.v
theories/Properties/FitCheck.v
theories/Properties/FitMethods.v
theories/Properties/FitParam.v
theories/Properties/FitPicture.v
theories/Properties/FitPrepare.v
theories/Properties/FloatAxis.v
theories/Properties/FloatCount.v
theories/Properties/FloatDrift.v
theories/Properties/FloatFill.v
theories/Properties/FloatShrink.v
theories/Properties/Grid.v
theories/Properties/GridPoint.v
theories/Properties/GridProject.v
theories/Properties/Heap.v
theories/Properties/Limit.v
theories/Properties/LimitBins.v
theories/Properties/LimitStore.v
theories/Properties/LoadShape.v
theories/Properties/Logging.v
theories/Properties/Many.v
theories/Properties/Minimise.v
theories/Properties/Normalise.v
theories/Properties/OldFile.v
theories/Properties/Ops.v
theories/Properties/Penalty.v
theories/Properties/Plot.v
theories/Properties/PlotGrab.v
theories/Properties/PreConv.v
theories/Properties/PreMade.v
theories/Properties/PreMadeRun.v
theories/Properties/Project.v
theories/Properties/Read.v
theories/Properties/Rebin.v
theories/Properties/RebinProject.v
theories/Properties/Resolution.v
theories/Properties/Results.v
theories/Properties/Scan.v
theories/Properties/ScanBins.v
theories/Properties/Scripts.v
theories/Properties/Shift.v
theories/Properties/ShiftAxes.v
theories/Properties/Shrink.v
theories/Properties/ShrinkSteps.v
theories/Properties/Smear.v
theories/Properties/StatOrder.v
theories/Properties/Statistics.v
theories/Properties/StatisticsBins.v
theories/Properties/Store.v
theories/Properties/TestStat.v
theories/Properties/Weights.v
theories/Spec/AddUpSpec.v
theories/Spec/ArraySpec.v
theories/Spec/AxisSetSpec.v
theories/Spec/AxisSpec.v
theories/Spec/CheckSpec.v
theories/Spec/ChiPlotSpec.v
theories/Spec/CombineSpec.v
theories/Spec/ConfigSpec.v
theories/Spec/CrashSpec.v
theories/Spec/CutPositionSpec.v
theories/Spec/DecaySpec.v
theories/Spec/EventSpec.v
theories/Spec/ExtractSpec.v
theories/Spec/FillScriptSpec.v
theories/Spec/FitCheckSpec.v
theories/Spec/FitLimitBinsSpec.v
theories/Spec/FitLimitSpec.v
theories/Spec/FitMethodSpec.v
theories/Spec/FitPictureSpec.v
theories/Spec/FitRunSpec.v
theories/Spec/FitSetSpec.v
theories/Spec/FitSpec.v
theories/Spec/FloatAxisSpec.v
theories/Spec/FloatRunSpec.v
theories/Spec/FloatShrinkSpec.v
theories/Spec/FloatSpec.v
theories/Spec/GridPointSpec.v
theories/Spec/GridProjectSpec.v
theories/Spec/HeapSpec.v
theories/Spec/LimitBinsSpec.v
theories/Spec/LimitSpec.v
theories/Spec/LimitStoreSpec.v
theories/Spec/LoadShapeSpec.v
theories/Spec/LoggingSpec.v
theories/Spec/ManySpec.v
theories/Spec/NameSpec.v
theories/Spec/OldFileSpec.v
theories/Spec/OpsSpec.v
theories/Spec/PenaltySpec.v
theories/Spec/PlotGrabSpec.v
theories/Spec/PlotSpec.v
theories/Spec/PreMadeRunSpec.v
theories/Spec/PreMadeSpec.v
theories/Spec/ReadSpec.v
theories/Spec/RebinSpec.v
theories/Spec/ResultsSpec.v
theories/Spec/ScriptSpec.v
theories/Spec/SearchSpec.v
theories/Spec/ShiftSpec.v
theories/Spec/ShrinkAnySpec.v
theories/Spec/ShrinkSpec.v
theories/Spec/ShrinkStepsSpec.v
theories/Spec/SmearSpec.v
theories/Spec/SpectraSpec.v
theories/Spec/StatOrderSpec.v
theories/Spec/StatSpec.v
theories/Spec/StatisticsBinsSpec.v
theories/Spec/StatisticsSpec.v
theories/Spec/StoreSpec.v
theories/Spec/WeightsSpec.v
