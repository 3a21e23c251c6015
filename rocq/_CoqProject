-Q theories Verif
theories/Base.v
theories/BaseLemmas.v
theories/Species.v
theories/Reactions.v
theories/Chemistry.v
theories/ChemSpec.v
theories/ChemDisable.v
theories/ChemInv.v
theories/ChemHist.v
theories/ChemLoad.v
theories/ChemMain.v
theories/ChemGetters.v
theories/ChemHeap.v
theories/ChemWorld.v
theories/ChemMore.v
theories/ChemExamples.v
theories/PropsChemistry.v
theories/SortLemmas.v
theories/MolSpec.v
theories/SpeciesProofs.v
theories/ReactionProofs.v
theories/MolExamples.v
theories/PropsMolecules.v
theories/Classification.v
theories/ClassSpec.v
theories/ClassProofs.v
theories/ClassExact.v
theories/ClassSort.v
theories/ClassMeaning.v
theories/ClassCategories.v
theories/ClassExamples.v
theories/ClassOrder.v
theories/PropsClassification.v
theories/Graph.v
theories/GraphSpec.v
theories/GraphProofs.v
theories/GraphPaths.v
theories/GraphFlow.v
theories/ChemGraph.v
theories/ChemGraphSpec.v
theories/ChemGraphProofs.v
theories/ChemRanking.v
theories/GraphExamples.v
theories/GraphMore.v
theories/PropsGraph.v
theories/Morris.v
theories/MorrisSpec.v
theories/MorrisDesign.v
theories/MorrisMaps.v
theories/MorrisRet.v
theories/MorrisRun.v
theories/MorrisRunSpec.v
theories/MorrisRunProofs.v
theories/MorrisRunMore.v
theories/MorrisStats.v
theories/MorrisStatsProofs.v
theories/MorrisExamples.v
theories/PropsMorris.v
theories/Tables.v
theories/TablesSpec.v
theories/TablesProofs.v
theories/TablesCompress.v
theories/TablesErrors.v
theories/TablesExamples.v
theories/PropsResults.v
theories/InitialGuess.v
theories/InitialSpec.v
theories/InitialProofs.v
theories/InitialMain.v
theories/InitialExamples.v
theories/GlobalModel.v
theories/GlobalSpec.v
theories/GlobalFiles.v
theories/GlobalLog.v
theories/GlobalProofs.v
theories/GlobalMore.v
theories/GlobalExamples.v
theories/Reduction.v
theories/ReductionSpec.v
theories/ReductionChem.v
theories/ReductionRun.v
theories/ReductionProofs.v
theories/ReductionMain.v
theories/ReductionExamples.v
theories/StartGiven.v
theories/PropsRun.v
theories/PropsGlobal.v
theories/PropsReduction.v
theories/ModelParams.v
theories/ParamsSpec.v
theories/ParamsProofs.v
theories/ParamsMain.v
theories/ParamsRound.v
theories/ParamsExamples.v
theories/PropsParams.v
theories/ExtReal.v
theories/Equations.v
theories/EqSpec.v
theories/EqPure.v
theories/EqDefaults.v
theories/EqPower.v
theories/EqReal.v
theories/EqFlow.v
theories/EqFloors.v
theories/EqWall.v
theories/EqMore.v
theories/EqExamples.v
theories/PropsEquations.v
theories/Views.v
theories/Rates.v
theories/ConserveSpec.v
theories/Conserve.v
theories/EnergySpec.v
theories/EqEnergy.v
theories/RatesProofs.v
theories/BalanceExamples.v
theories/PropsBalance.v
theories/LinkSpec.v
theories/Links.v
theories/PropsLinks.v
theories/Xml.v
theories/XmlSpec.v
theories/XmlProofs.v
theories/XmlRead.v
theories/XmlReact.v
theories/XmlRound.v
theories/XmlIds.v
theories/XmlBuilder.v
theories/XmlMain.v
theories/XmlExamples.v
theories/PropsXml.v
theories/Latex.v
theories/LatexSpec.v
theories/LatexNum.v
theories/LatexRate.v
theories/LatexName.v
theories/LatexFormula.v
theories/LatexSet.v
theories/LatexReact.v
theories/LatexExamples.v
theories/PropsLatex.v
theories/Neutral.v
theories/NeutralProofs.v
theories/Solution.v
theories/SolutionProofs.v
theories/SolutionMore.v
theories/SolutionExamples.v
theories/SolutionWitness.v
theories/SolutionFirst.v
theories/PropsSolution.v
theories/Workspace.v
theories/WorkspaceSpec.v
theories/WorkspaceProofs.v
theories/WorkspaceHist.v
theories/WorkspaceOne.v
theories/WorkspaceExamples.v
theories/PropsWorkspace.v
theories/Report.v
theories/ReportSpec.v
theories/ReportProofs.v
theories/ReportExamples.v
theories/PropsReport.v
theories/PrettyPrint.v
theories/PrettySpec.v
theories/PrettyProofs.v
theories/PrettyExamples.v
theories/PrettyMore.v
theories/PropsPrint.v
theories/Hpem.v
theories/HpemSpec.v
theories/HpemText.v
theories/HpemProofs.v
theories/HpemMain.v
theories/HpemBuilder.v
theories/HpemExamples.v
theories/PropsHpem.v
theories/Qdb.v
theories/QdbSpec.v
theories/QdbProofs.v
theories/QdbMain.v
theories/QdbBuilder.v
theories/QdbExamples.v
theories/PropsQdb.v
theories/AttrTable.v
theories/AttrSpec.v
theories/AttrColor.v
theories/AttrSpecies.v
theories/AttrLayout.v
theories/AttrReact.v
theories/AttrExamples.v
theories/PropsAttr.v
theories/RateCoef.v
theories/RateSpec.v
theories/RateCoefProofs.v
theories/RateNames.v
theories/RateExamples.v
theories/PropsRate.v
theories/TexTable.v
theories/TexSpec.v
theories/TexProofs.v
theories/TexText.v
theories/TexNest.v
theories/TexReact.v
theories/TexRows.v
theories/TexDet.v
theories/TexColumns.v
theories/TexExamples.v
theories/PropsTex.v
theories/Compare.v
theories/CompareSpec.v
theories/CompareText.v
theories/CompareRun.v
theories/CompareDraw.v
theories/CompareMain.v
theories/CompareFigure.v
theories/CompareExamples.v
theories/PropsCompare.v
theories/RunCompare.v
theories/RunCompareSpec.v
theories/RunCompareProofs.v
theories/RunCompareExamples.v
theories/PropsRunCompare.v
theories/RecordsSpec.v
theories/RecordsProofs.v
theories/RecordsReact.v
theories/RecordsExamples.v
theories/PropsRecords.v
theories/GraphInit.v
theories/GraphInitSpec.v
theories/GraphInitProofs.v
theories/GraphInitRank.v
theories/GraphInitExamples.v
theories/GraphReduce.v
theories/PropsGraphInit.v
theories/Diagnose.v
theories/DiagnoseSpec.v
theories/DiagnoseProofs.v
theories/DiagnoseMore.v
theories/PropsDiagnose.v
theories/EdgeCases.v
theories/PropsEdge.v
theories/RankSpec.v
theories/RankMethods.v
theories/PropsRank.v
theories/ChainSpec.v
theories/ReductionChain.v
theories/ChainExamples.v
theories/PropsChain.v
theories/ScoresSpec.v
theories/ReductionScores.v
theories/ScoresExamples.v
theories/PropsScores.v
theories/UnknownImportant.v
theories/PropsUnknown.v
theories/DynamicSpec.v
theories/DynamicProofs.v
theories/DynamicExamples.v
theories/PropsDynamic.v
theories/IonSpec.v
theories/DiagnoseIon.v
theories/PropsIon.v
theories/XmlSortSpec.v
theories/XmlSort.v
theories/XmlSortExamples.v
theories/PropsXmlSort.v
theories/XmlSortable.v
theories/XmlSortRound.v
theories/PropsXmlSortable.v
