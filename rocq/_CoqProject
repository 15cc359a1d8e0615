-Q theories Verif
theories/Base.v
theories/Wp.v
theories/ListLemmas.v
theories/Utils.v
theories/Appliance.v
theories/Spec.v
theories/SpecDay.v
theories/Tape.v
theories/ProofsUtils.v
theories/ProofsUtils2.v
theories/ProofsAppliance.v
theories/ProofsEvent.v
theories/ProofsEvent2.v
theories/PropsBasic.v
theories/ProofsDay.v
theories/ProofsDay2.v
theories/ProofsDay3.v
theories/PropsDay.v
theories/PropsDayCases.v
theories/Attributes.v
theories/User.v
theories/Sim.v
theories/SpecUser.v
theories/ProofsUser.v
theories/ProofsUser2.v
theories/PropsUser.v
theories/ProofsEq.v
theories/PropsReg.v
theories/UseCase.v
theories/SpecUseCase.v
theories/ProofsUseCase.v
theories/PropsUseCase.v
theories/PropsInit.v
theories/PropsPeak.v
theories/ProofsParallel.v
theories/PropsParallel.v
theories/Calendar.v
theories/PropsCalendar.v
theories/Tabular.v
theories/SpecTabular.v
theories/ProofsTabular.v
theories/PropsTabular.v
theories/PropsLoad.v
theories/PropsBlank.v
theories/PostProcess.v
theories/PropsPost.v
theories/Convert.v
theories/PropsConvert.v
theories/Cli.v
theories/PropsCli.v
theories/PropsMonths.v
theories/PropsPeakCli.v
theories/F64.v
theories/F64Run.v
theories/ProofsRun.v
theories/PropsTight.v
theories/PropsCoincidence.v
theories/Cases.v
theories/PropsRuns.v
theories/Declare.v
theories/PropsEnvelope.v
theories/PropsEnergy.v
theories/PropsDeclare.v
theories/PropsNumWindows.v
theories/PropsTotal.v
theories/Script.v
theories/PropsScript.v
theories/Examples.v
theories/PropsExamples.v
theories/PropsOverflow.v
theories/PropsPopulation.v
theories/PropsSaved.v
theories/PropsParallelDay.v
theories/Standalone.v
theories/PropsStandalone.v
theories/Heap.v
theories/PropsHeap.v
theories/PropsShared.v
theories/FloatSum.v
theories/PropsRounding.v
theories/PropsFloatBounds.v
theories/Session.v
theories/PropsSession.v
theories/PropsSessionCases.v
theories/Plots.v
theories/PropsPlot.v
theories/PropsResample.v
theories/Dates.v
theories/PropsDates.v
theories/Call.v
theories/PropsCall.v
theories/SimScale.v
theories/PropsScale.v
theories/Naming.v
theories/PropsNaming.v
theories/PropsModule.v
theories/Prob.v
theories/PropsProb.v
theories/PropsLaw.v
theories/PropsMean.v
theories/PropsThermal.v
theories/PropsFlatMean.v
theories/PropsIndep.v
theories/PropsDiverse.v
theories/PropsMeanEnergy.v
theories/PropsMeanDay.v
theories/PropsPopLaw.v
theories/PropsParLaw.v
theories/SimShift.v
theories/PropsShift.v
theories/PropsMore.v
theories/PropsRetry.v
theories/PropsShiftRun.v
theories/PropsNamingText.v
theories/PropsDateArgs.v
theories/PropsUnused.v
theories/Assumptions.v
