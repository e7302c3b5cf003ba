-Q theories Verif
theories/Base/Prelude.v
theories/Base/Rounding.v
theories/Base/B32.v
theories/Base/Precision.v
theories/Base/ListUtil.v
theories/Base/Interp.v
theories/Base/NdArray.v
theories/Base/Cplx.v
theories/Base/PyString.v
theories/Base/Dec.v
theories/Base/FileSys.v
theories/Model/Sampling.v
theories/Model/DateTime.v
theories/Model/Time.v
theories/Model/Decimate.v
theories/Model/Window.v
theories/Model/Timestamps.v
theories/Model/Spectra.v
theories/Model/MagPhs.v
theories/Model/Calibrate.v
theories/Model/ChanTypes.v
theories/Model/Gather.v
theories/Model/Regression.v
theories/Model/Solvers.v
theories/Model/TransFunc.v
theories/Model/Pipeline.v
theories/Model/Display.v
theories/Model/SpectraPlot.v
theories/Model/TimePlot.v
theories/Model/Tables.v
theories/Model/Quick.v
theories/Spec/SpectraPlot.v
theories/Spec/TimePlot.v
theories/Spec/Tables.v
theories/Spec/Quick.v
theories/Spec/Refused.v
theories/Model/Tipper.v
theories/Model/Project.v
theories/Model/CalFile.v
theories/Model/Letsgo.v
theories/Model/Persist.v
theories/Model/ProcessTime.v
theories/Model/AsciiData.v
theories/Model/Parallel.v
theories/Model/Process.v
theories/Model/Alias.v
theories/Base/SortNames.v
theories/Base/Elim.v
theories/Spec/Sampling.v
theories/Spec/DateTime.v
theories/Spec/Time.v
theories/Spec/Decimate.v
theories/Spec/Window.v
theories/Spec/Spectra.v
theories/Spec/MagPhs.v
theories/Spec/Calibrate.v
theories/Spec/ChanTypes.v
theories/Spec/Gather.v
theories/Spec/Regression.v
theories/Spec/Weights.v
theories/Spec/Solvers.v
theories/Spec/Pipeline.v
theories/Spec/Remote.v
theories/Spec/Linear.v
theories/Spec/TransFunc.v
theories/Spec/Display.v
theories/Spec/Tipper.v
theories/Spec/Project.v
theories/Spec/CalFile.v
theories/Spec/Persist.v
theories/Spec/AsciiData.v
theories/Spec/Parallel.v
theories/Spec/Process.v
theories/Spec/Alias.v
theories/Proofs/Sampling.v
theories/Proofs/DateTime.v
theories/Proofs/SamplingFloat.v
theories/Proofs/Period.v
theories/Proofs/SamplingErr.v
theories/Proofs/TimeMeta.v
theories/Proofs/TimeProc.v
theories/Proofs/Factors.v
theories/Proofs/TimeSub.v
theories/Proofs/SubsectionFloat.v
theories/Proofs/TimeData.v
theories/Proofs/TimeData2.v
theories/Proofs/TimeTotal.v
theories/Proofs/Shift32.v
theories/Proofs/ShiftFloat.v
theories/Proofs/TimeFinal.v
theories/Proofs/Toy.v
theories/Proofs/EvalFreqs.v
theories/Proofs/DecFactors.v
theories/Proofs/DecParams.v
theories/Proofs/DecRun.v
theories/Proofs/DecFinal.v
theories/Proofs/ToyDec.v
theories/Proofs/Window.v
theories/Proofs/WindowTable.v
theories/Proofs/WindowRun.v
theories/Proofs/WindowFinal.v
theories/Proofs/WindowFloat.v
theories/Proofs/WindowMore.v
theories/Proofs/WindowTarget.v
theories/Proofs/Timestamps.v
theories/Proofs/ToyWin.v
theories/Proofs/Spectra.v
theories/Proofs/SpectraFreqs.v
theories/Proofs/ToySpec.v
theories/Proofs/Calibrate.v
theories/Proofs/ChanTypes.v
theories/Proofs/CalibrateFinal.v
theories/Proofs/CalTxt.v
theories/Proofs/Gather.v
theories/Proofs/GatherData.v
theories/Proofs/Accessors.v
theories/Proofs/GatherFinal.v
theories/Proofs/GatherQuick.v
theories/Proofs/SpectraPlot.v
theories/Proofs/TimePlot.v
theories/Proofs/Refused.v
theories/Proofs/Tables.v
theories/Proofs/Quick.v
theories/Proofs/RoundedMore.v
theories/Proofs/RoundedSpectra.v
theories/Proofs/Regression.v
theories/Proofs/RegressionFinal.v
theories/Proofs/Weights.v
theories/Proofs/RegressionQuick.v
theories/Proofs/Solvers.v
theories/Proofs/SolversMore.v
theories/Proofs/SolversEx.v
theories/Proofs/PipelineShape.v
theories/Proofs/PipelineFinal.v
theories/Proofs/Remote.v
theories/Proofs/Linear.v
theories/Proofs/TransFunc.v
theories/Proofs/TransFuncText.v
theories/Proofs/PipelineUse.v
theories/Proofs/ProcessTime.v
theories/Proofs/PipelineSizes.v
theories/Proofs/PipelineFreqs.v
theories/Proofs/Display.v
theories/Proofs/Tipper.v
theories/Proofs/FileSys.v
theories/Proofs/ProjectFs.v
theories/Proofs/ProjectLoad.v
theories/Proofs/ProjectNames.v
theories/Proofs/CalFile.v
theories/Proofs/ProjectSites.v
theories/Proofs/ProjectFinal.v
theories/Proofs/PersistFs.v
theories/Proofs/Persist.v
theories/Proofs/AsciiData.v
theories/Proofs/AsciiFile.v
theories/Proofs/Parallel.v
theories/Proofs/ParallelJobs.v
theories/Proofs/PersistTime.v
theories/Proofs/Process.v
theories/Proofs/Alias.v
theories/Proofs/AliasFinal.v
theories/Props/Gather.v
theories/Props/Regression.v
theories/Props/Weights.v
theories/Props/TransFunc.v
theories/Props/Solvers.v
theories/Props/Pipeline.v
theories/Props/Remote.v
theories/Props/Linear.v
theories/Props/Display.v
theories/Props/SpectraPlot.v
theories/Props/TimePlot.v
theories/Props/Refused.v
theories/Props/Tables.v
theories/Props/Quick.v
theories/Props/Tipper.v
theories/Props/Project.v
theories/Props/Persist.v
theories/Props/AsciiData.v
theories/Props/Parallel.v
theories/Props/Process.v
theories/Props/Alias.v
theories/Props/ProcessTime.v
theories/Props/Sampling.v
theories/Props/DateTime.v
theories/Props/Time.v
theories/Props/Decimate.v
theories/Props/Window.v
theories/Props/Timestamps.v
theories/Props/Spectra.v
theories/Props/Accessors.v
theories/Props/Calibrate.v
theories/Props/ChanTypes.v
theories/Props/CalFile.v
theories/Model/ParallelRead.v
theories/Proofs/ParallelRead.v
theories/Props/ParallelRead.v
theories/Props/Restart.v
theories/Props/Later.v
theories/Props/OwnChans.v
theories/Props/PartOf.v
theories/Props/Units.v
theories/Props/Gain.v
theories/Props/MagPhs.v
theories/Props/Superpose.v
theories/Props/Alone.v
theories/Props/Renamed.v
theories/Props/Unaffected.v
theories/Proofs/RestartTf.v
theories/Proofs/Later.v
theories/Proofs/OwnChans.v
theories/Proofs/OwnChansCal.v
theories/Proofs/PartOf.v
theories/Proofs/Units.v
theories/Proofs/UnitsFit.v
theories/Proofs/UnitsTf.v
theories/Proofs/UnitsRun.v
theories/Proofs/UnitsEx.v
theories/Proofs/UnitsCal.v
theories/Proofs/UnitsCalRun.v
theories/Proofs/GainCal.v
theories/Proofs/GainRun.v
theories/Proofs/MagPhs.v
theories/Proofs/SuperposeFit.v
theories/Proofs/Superpose.v
theories/Proofs/Alone.v
theories/Proofs/Renamed.v
theories/Proofs/RenamedRun.v
theories/Proofs/Unaffected.v
theories/Proofs/Restart.v
theories/Spec/Restart.v
theories/Spec/Later.v
theories/Spec/OwnChans.v
theories/Spec/PartOf.v
theories/Spec/Units.v
theories/Spec/Gain.v
theories/Spec/Superpose.v
theories/Spec/Alone.v
theories/Spec/Renamed.v
theories/Spec/Unaffected.v
