-Q theories Verif
theories/PyBase.v
theories/Num.v
theories/ExtReal.v
theories/NumPy.v
theories/Dataset.v
theories/Preproc.v
theories/Mos.v
theories/BaseProofs.v
theories/ExtRealProofs.v
theories/SpecDataset.v
theories/SpecMos.v
theories/Combine.v
theories/PcDataset.v
theories/Mocked.v
theories/SpecConv.v
theories/SpecPc.v
theories/SpecMocked.v
theories/ArrayProofs.v
theories/DatasetProofs.v
theories/RecordedProofs.v
theories/MosProofs.v
theories/PreprocProofs.v
theories/RejectProofs.v
theories/Reject2Proofs.v
theories/StepsProofs.v
theories/MosWitness.v
theories/ConvProofs.v
theories/CombineProofs.v
theories/PcProofs.v
theories/Pc2Proofs.v
theories/Pc3Proofs.v
theories/Pc4Proofs.v
theories/Pc5Proofs.v
theories/Pc6Proofs.v
theories/Pc7Proofs.v
theories/PcWitness.v
theories/MockedProofs.v
theories/Mocked2Proofs.v
theories/Mocked3Proofs.v
theories/AP.v
theories/SpecAp.v
theories/ApProofs.v
theories/Ap2Proofs.v
theories/Ap3Proofs.v
theories/Ap4Proofs.v
theories/Ap5Proofs.v
theories/Ap6Proofs.v
theories/Ap7Proofs.v
theories/Ap8Proofs.v
theories/Ap9Proofs.v
theories/Ap40Proofs.v
theories/Ap41Proofs.v
theories/ApWitness.v
theories/Mle.v
theories/SpecMle.v
theories/MleProofs.v
theories/Mle2Proofs.v
theories/Mle3Proofs.v
theories/Mle4Proofs.v
theories/Mle5Proofs.v
theories/Mle6Proofs.v
theories/Mle7Proofs.v
theories/Mle8Proofs.v
theories/Mle9Proofs.v
theories/Eval.v
theories/MleWitness.v
theories/Mle2Witness.v
theories/PairedComp.v
theories/SpecBt.v
theories/BtProofs.v
theories/Bt2Proofs.v
theories/Bt3Proofs.v
theories/Bt4Proofs.v
theories/Bt5Proofs.v
theories/Bt6Proofs.v
theories/NormalCdf.v
theories/BtWitness.v
theories/Tools.v
theories/Classes.v
theories/SpecTools.v
theories/ToolsProofs.v
theories/Tools2Proofs.v
theories/ClassesProofs.v
theories/ToolsWitness.v
theories/Perf.v
theories/SpecPerf.v
theories/PerfProofs.v
theories/Perf2Proofs.v
theories/Perf3Proofs.v
theories/PerfWitness.v
theories/Routine.v
theories/SpecRoutine.v
theories/Report.v
theories/RoutineProofs.v
theories/Routine2Proofs.v
theories/Routine3Proofs.v
theories/Routine4Proofs.v
theories/Routine5Proofs.v
theories/ReportProofs.v
theories/Report2Proofs.v
theories/Report3Proofs.v
theories/RoutineWitness.v
theories/Experimental.v
theories/SpecExperimental.v
theories/ExpProofs.v
theories/Exp2Proofs.v
theories/ExpWitness.v
theories/ExpWitness2.v
theories/ExpWitness3.v
theories/SpecMosReport.v
theories/MosReportProofs.v
theories/OtherModels.v
theories/SpecOther.v
theories/LsProofs.v
theories/LegacyProofs.v
theories/Legacy2Proofs.v
theories/LiveProofs.v
theories/OtherWitness.v
theories/PropDataset.v
theories/PropMos.v
theories/PropConv.v
theories/PropPc.v
theories/PropMocked.v
theories/PropAp.v
theories/PropMle.v
theories/PropBt.v
theories/PropTools.v
theories/PropPerf.v
theories/PropRoutine.v
theories/PropExperimental.v
theories/PropMosReport.v
theories/PropOther.v
theories/NumFloat.v
theories/Validate.v
theories/ValidateData.v
theories/ValidateMos.v
theories/ValidateAp.v
theories/ValidateLegacy.v
theories/ValidateMle.v
theories/ValidatePc.v
theories/Inverse.v
theories/SpecInverse.v
theories/InverseProofs.v
theories/PropInverse.v
theories/Runs.v
theories/SpecRuns.v
theories/RunsProofs.v
theories/Runs2Proofs.v
theories/RunsWitness.v
theories/PropRuns.v
theories/Stats.v
theories/SpecStats.v
theories/StatsProofs.v
theories/Stats2Proofs.v
theories/ConvolveProofs.v
theories/StatsWitness.v
theories/PropStats.v
theories/Names.v
theories/SpecNames.v
theories/NamesProofs.v
theories/Commands.v
theories/SpecCommands.v
theories/CommandsProofs.v
theories/PropCommands.v
theories/Demo.v
theories/SpecDemo.v
theories/DemoProofs.v
theories/DemoWitness.v
theories/Demo2Proofs.v
theories/PropDemo.v
theories/Converter.v
theories/SpecConverter.v
theories/ConverterProofs.v
theories/Converter2Proofs.v
theories/Converter3Proofs.v
theories/PropConverter.v
theories/Figures.v
theories/SpecFigures.v
theories/FiguresProofs.v
theories/Figures2Proofs.v
theories/Figures3Proofs.v
theories/Figures4Proofs.v
theories/FiguresWitness.v
theories/PropFigures.v
theories/Panels.v
theories/SpecPanels.v
theories/PanelsProofs.v
theories/Panels2Proofs.v
theories/PanelsWitness.v
theories/PropPanels.v
theories/Validation.v
theories/SpecValidation.v
theories/ValidationProofs.v
theories/ValidationWitness.v
theories/PropValidation.v
theories/NumB64.v
theories/SpecB64.v
theories/B64Proofs.v
theories/B64SumProofs.v
theories/B64MosProofs.v
theories/B64StdProofs.v
theories/B64SpreadProofs.v
theories/B64Witness.v
theories/PropB64.v
theories/Extras.v
theories/SpecExtras.v
theories/ExtrasProofs.v
theories/PropExtras.v
theories/SpecPerFinal.v
theories/PerFinalProofs.v
theories/PropPerFinal.v
theories/Script.v
theories/SpecScript.v
theories/ScriptProofs.v
theories/PropScript.v
theories/SpecDescent.v
theories/DescentProofs.v
theories/PropDescent.v
theories/SpecBtLimit.v
theories/BtLimitProofs.v
theories/ThurstoneProofs.v
theories/PropBtLimit.v
theories/SpecAny.v
theories/AnyProofs.v
theories/AnyWitness.v
theories/PropAny.v
theories/SpecUnit.v
theories/UnitProofs.v
theories/PropUnit.v
theories/SpecThExists.v
theories/ThExistsProofs.v
theories/PropThExists.v
theories/BtEndsProofs.v
theories/BtEndsWitness.v
theories/PropBtEnds.v
theories/SpecRaise.v
theories/RaiseProofs.v
theories/RaiseWitness.v
theories/PropRaise.v
theories/SpecReorder.v
theories/ReorderProofs.v
theories/PropReorder.v
theories/SpecPlaces.v
theories/PlacesProofs.v
theories/PropPlaces.v
theories/SpecHelpers.v
theories/HelpersProofs.v
theories/PropHelpers.v
theories/SpecMass.v
theories/MassProofs.v
theories/PropMass.v
theories/SpecDensity.v
theories/DensityProofs.v
theories/PropDensity.v
theories/SpecReorder2.v
theories/Reorder2Proofs.v
theories/PropReorder2.v
theories/SpecReorder3.v
theories/Reorder3Proofs.v
theories/PropReorder3.v
theories/SpecScale.v
theories/ScaleProofs.v
theories/Scale2Proofs.v
theories/Scale3Proofs.v
theories/Scale4Proofs.v
theories/ScaleWitness.v
theories/PropScale.v
theories/SpecThZ.v
theories/ThZProofs.v
theories/PropThZ.v
theories/NrZProofs.v
theories/PropNrZ.v
