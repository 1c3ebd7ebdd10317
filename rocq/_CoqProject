-Q theories Verif

theories/PyBase.v
theories/PyBaseFacts.v
theories/ModelHelper.v
theories/SpecPartitions.v
theories/ProofsHelper.v
theories/ModelW.v
theories/SpecW.v
theories/ProofsW.v
theories/PropertiesPartitions.v
theories/PropertiesW.v
theories/GoldenW.v
theories/ModelDt.v
theories/GoldenDt.v
theories/SpecDt.v
theories/ProofsDt.v
theories/PropertiesDt.v
theories/PyStr.v
theories/ModelResidual.v
theories/GoldenResidual.v
theories/SpecResidual.v
theories/ProofsStr.v
theories/ProofsResidual.v
theories/PropertiesResidual.v
theories/ModelLatexW.v
theories/SpecLatexW.v
theories/GoldenLatexW.v
theories/ProofsLatexW.v
theories/PropertiesLatexW.v
theories/ModelTrunc.v
theories/SpecTrunc.v
theories/ProofsTrunc.v
theories/PropertiesTrunc.v
theories/ModelFullCC.v
theories/SpecFullCC.v
theories/ProofsFullCC.v
theories/PropertiesFullCC.v
theories/ModelPrefactor.v
theories/ModelFullCCPy.v
theories/GoldenFullCC.v
theories/SpecPrefactor.v
theories/ProofsPrefactor.v
theories/SpecFullCCPy.v
theories/ProofsFullCCLabels.v
theories/ProofsFullCCPy.v
theories/ProofsFullCCBuckets.v
theories/ProofsFullCCPaths.v
theories/ProofsFullCCFile.v
theories/PropertiesFullCCPy.v
theories/ModelFullCCLatex.v
theories/GoldenFullCCLatex.v
theories/SpecFullCCLatex.v
theories/ProofsFullCCLatexText.v
theories/ProofsFullCCLatex.v
theories/ProofsFullCCLatexFile.v
theories/ProofsFullCCLatexIndices.v
theories/PropertiesFullCCLatex.v
theories/ModelZhz.v
theories/GoldenZhz.v
theories/SpecZhz.v
theories/ProofsZhz.v
theories/ProofsZhzLatex.v
theories/ProofsZhzFile.v
theories/ProofsZhzEquation.v
theories/PropertiesZhz.v
theories/ModelEt.v
theories/SpecEt.v
theories/ProofsEt.v
theories/PropertiesEt.v
theories/ModelEtPy.v
theories/GoldenEt.v
theories/SpecEtPy.v
theories/ProofsEtPy.v
theories/ProofsEtBody.v
theories/ProofsEtText.v
theories/ProofsEtGen.v
theories/ProofsEtCalls.v
theories/ProofsEtFile.v
theories/PropertiesEtPy.v
theories/SpecPython.v
theories/ProofsPython.v
theories/SpecEtText.v
theories/ProofsEtRead.v
theories/ProofsEtProgram.v
theories/PropertiesEtText.v
theories/ModelEtLatex.v
theories/GoldenEtLatex.v
theories/SpecEtLatex.v
theories/ProofsEtLatex.v
theories/ProofsEtLatexTerm.v
theories/ProofsEtLatexFile.v
theories/ProofsEtLatexIndices.v
theories/PropertiesEtLatex.v
theories/SpecFullCCText.v
theories/ProofsFullCCRead.v
theories/ProofsFullCCProgram.v
theories/ProofsFullCCText.v
theories/PropertiesFullCCText.v
theories/ProofsParse.v
theories/SpecSumText.v
theories/SpecWText.v
theories/ProofsSumText.v
theories/ProofsWText.v
theories/PropertiesWText.v
theories/SpecDtText.v
theories/ProofsDtText.v
theories/ProofsDtFuns.v
theories/PropertiesDtText.v
theories/SpecResidualText.v
theories/ProofsResidualText.v
theories/PropertiesResidualText.v
theories/SpecNames.v
theories/ProofsNames.v
theories/ModelSymmetrize.v
theories/SpecSymmetrize.v
theories/ProofsSymmetrize.v
theories/SpecModules.v
theories/ProofsNamesChecks.v
theories/ProofsModules.v
theories/PropertiesModules.v
theories/SpecFullCCPlaces.v
theories/ProofsFullCCPlaces.v
theories/PropertiesFullCCPlaces.v
theories/SpecTex.v
theories/SpecTexW.v
theories/ProofsTex.v
theories/ProofsTexW.v
theories/ProofsTexGround.v
theories/ProofsTexThermal.v
theories/PropertiesTexW.v
theories/ProofsNamesText.v
theories/ProofsNamesFullCC.v
theories/ProofsNamesFullCCFile.v
theories/ProofsNamesEt.v
theories/PropertiesNames.v
theories/ModelHeaders.v
theories/ModelRun.v
theories/SpecRun.v
theories/ProofsRun.v
theories/PropertiesRun.v
theories/SpecTexDoc.v
theories/ProofsTexDoc.v
theories/ProofsTexFullCC.v
theories/ProofsTexZ.v
theories/ProofsTexEt.v
theories/ModelWFile.v
theories/SpecWFile.v
theories/ProofsWFile.v
theories/ProofsTexZAll.v
theories/ProofsTexRun.v
theories/PropertiesTexDoc.v
theories/SpecTruncated.v
theories/ProofsTruncated.v
theories/PropertiesTruncated.v
theories/SpecRuntime.v
theories/ProofsRuntime.v
theories/PropertiesRuntime.v
theories/ModelCommandLine.v
theories/SpecCommandLine.v
theories/ProofsCommandLine.v
theories/PropertiesCommandLine.v
theories/ModelMain.v
theories/SpecMain.v
theories/ProofsMain.v
theories/PropertiesMain.v
theories/SpecReproducible.v
theories/ProofsReproducible.v
theories/PropertiesReproducible.v
theories/ProofsPartitions.v
theories/SpecRefused.v
theories/ProofsRefused.v
theories/PropertiesRefused.v
theories/SpecFullCCComplete.v
theories/ProofsFullCCComplete.v
theories/ProofsFullCCDistinct.v
theories/ProofsFullCCBags.v
theories/ProofsFullCCEvery.v
theories/PropertiesFullCCComplete.v
theories/SpecFullCCRunTime.v
theories/ProofsFullCCRunTime.v
theories/PropertiesFullCCRunTime.v
theories/SpecFullCCAgree.v
theories/ProofsFullCCAgree.v
theories/PropertiesFullCCAgree.v
theories/ProofsFullCCRun.v
theories/PropertiesFullCCRun.v
theories/SpecEinsum.v
theories/ProofsEinsum.v
theories/SpecWValue.v
theories/ProofsWValue.v
theories/PropertiesWValue.v
theories/SpecFullCCValue.v
theories/ProofsFullCCValue.v
theories/PropertiesFullCCValue.v
theories/SpecSymmetrizeValue.v
theories/ProofsSymmetrizeValue.v
theories/PropertiesSymmetrizeValue.v
theories/SpecResidualValue.v
theories/ProofsResidualValue.v
theories/PropertiesResidualValue.v
theories/SpecDtValue.v
theories/ProofsDtValue.v
theories/PropertiesDtValue.v
theories/SpecEtValue.v
theories/ProofsEtValue.v
theories/ProofsEtShift.v
theories/PropertiesEtValue.v
theories/SpecSymmetricW.v
theories/ProofsSymmetricW.v
theories/ProofsMotion.v
theories/PropertiesMotion.v
theories/SpecEtLeft.v
theories/ProofsEtLeft.v
theories/PropertiesEtLeft.v
theories/SpecPrintedW.v
theories/ProofsPrintedW.v
theories/PropertiesPrintedW.v
theories/SpecEtRun.v
theories/ProofsEtRun.v
theories/PropertiesEtRun.v
theories/SpecPathCalls.v
theories/ProofsPathCalls.v
theories/PropertiesPathCalls.v
theories/SpecBuilds.v
theories/ProofsBuilds.v
theories/PropertiesBuilds.v
theories/ModelAdjust.v
theories/SpecAdjust.v
theories/ProofsAdjust.v
theories/PropertiesAdjust.v
theories/ModelTLists.v
theories/SpecTLists.v
theories/ProofsTLists.v
theories/PropertiesTLists.v
theories/SpecEtBoth.v
theories/ProofsEtBoth.v
theories/PropertiesEtBoth.v
theories/SpecZhzValue.v
theories/ProofsZhzValue.v
theories/PropertiesZhzValue.v
theories/ProofsEtBothRun.v
theories/PropertiesEtBothRun.v
theories/ModelPermutations.v
theories/SpecPermutations.v
theories/ProofsPermutations.v
theories/PropertiesPermutations.v
theories/SpecJoined.v
theories/ProofsJoined.v
theories/PropertiesJoined.v
theories/ModelZhzLeft.v
theories/SpecZhzLeft.v
theories/ProofsZhzLeft.v
theories/PropertiesZhzLeft.v
theories/SpecJson.v
theories/ProofsJson.v
theories/PropertiesJson.v
theories/SpecJsonRun.v
theories/ProofsJsonRun.v
theories/PropertiesJsonRun.v
theories/ProofsJsonValues.v
theories/PropertiesJsonValues.v
theories/ProofsZhzEmpty.v
theories/PropertiesZhzEmpty.v
theories/ProofsJsonBad.v
theories/PropertiesJsonBad.v
