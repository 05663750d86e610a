-Q theories Verif
theories/PyStr.v
theories/PyStrFacts.v
theories/Formatter.v
theories/FormatterProofs.v
theories/FortranNumber.v
theories/FortranNumberProofs.v
theories/PropText.v
theories/RegionSpec.v
theories/RegionFacts.v
theories/PyInt.v
theories/PyIntFacts.v
theories/CellModel.v
theories/CellProofs.v
theories/CellText.v
theories/PropCell.v
theories/LexSpec.v
theories/CellWriters.v
theories/CellWritersProofs.v
theories/CellWritersOut.v
theories/PropWriters.v
theories/GeomSpec.v
theories/SurfModel.v
theories/SurfSpec.v
theories/SurfProofs.v
theories/PropSurf.v
theories/PropTransform.v
theories/MacroModel.v
theories/MacroSpec.v
theories/MacroProofs.v
theories/MacroText.v
theories/PropMacro.v
theories/FlattenModel.v
theories/FlattenProofs.v
theories/FlattenDeck.v
theories/PropFlatten.v
theories/NotsModel.v
theories/NotsProofs.v
theories/PropNots.v
theories/DedupeModel.v
theories/DedupeProofs.v
theories/PropDedupe.v
theories/PyDict.v
theories/NuclideData.v
theories/MaterialModel.v
theories/MaterialProofs.v
theories/PropMaterial.v
theories/ReorgProofs.v
theories/PropReorg.v
theories/NamesModel.v
theories/PropNames.v
theories/BoundaryModel.v
theories/PropBoundary.v
theories/SurfWriters.v
theories/TargetSpec.v
theories/SurfWritersProofs.v
theories/PropSurfOut.v
theories/SurfTargets.v
theories/SurfScone.v
theories/PropSurfTargets.v
theories/FlukaModel.v
theories/FlukaSpec.v
theories/PropFluka.v
theories/PyFmtE.v
theories/PyFmtEFacts.v
theories/FlukaInput.v
theories/PropFlukaMat.v
theories/PropFlukaNames.v
theories/DeckScan.v
theories/PropDeck.v
theories/MaterialWriters.v
theories/PropMaterialOut.v
theories/PropMaterialTargets.v
theories/KeywordModel.v
theories/PropKeyword.v
theories/OpenMCPrune.v
theories/PropPrune.v
theories/UniverseModel.v
theories/PropUniverse.v
theories/EulerModel.v
theories/PropEuler.v
theories/ConvertModel.v
theories/PropConvert.v
theories/FloatModel.v
theories/PropFloat.v
theories/ProcessModel.v
theories/ProcessSpec.v
theories/ProcessProofs.v
theories/PropProcess.v
theories/WrapProofs.v
theories/FileModel.v
theories/FileProofs.v
theories/PropFile.v
theories/PropSerpentIn.v
theories/PropTitle.v
theories/PropOpenMC.v
theories/LayoutProofs.v
theories/PropSerpentFile.v
theories/PropPhitsFile.v
theories/PropSconeFile.v
theories/PropFlukaFile.v
theories/PropRead.v
theories/MainModel.v
theories/PropPlace.v
theories/PropMain.v
theories/PropCards.v
theories/PropProgram.v
theories/PropTexts.v
theories/PropProgramSerpent.v
theories/PropProgramPhits.v
theories/PropProgramMcnp.v
theories/OptionsModel.v
theories/PropOptions.v
theories/PropSerpentTo.v
theories/XmlModel.v
theories/PropXml.v
theories/PropProgramXml.v
theories/PropVacuum.v
theories/PropCellText.v
theories/PropProgramScone.v
theories/PropFlukaCards.v
theories/PropProgramFluka.v
theories/AgainMat.v
theories/PropAgain.v
theories/PropAgainProgram.v
theories/UnusedModel.v
theories/PropUnused.v
theories/PropFixpoint.v
theories/PropFixpointProgram.v
theories/FloatDiffModel.v
theories/PropFloatDiff.v
theories/PropFloatSame.v
theories/PropSerpentMore.v
theories/PropUnknown.v
theories/PropParameters.v
theories/PropMass.v
theories/PropMissing.v
theories/PropCase.v
theories/PropEntries.v
theories/ConesModel.v
theories/PropCones.v
theories/PropMerged.v
theories/PropRefused.v
theories/PropFit.v
