-Q theories Verif
theories/Base.v
theories/Expr.v
theories/Visitors.v
theories/BaseFacts.v
theories/SpecExpr.v
theories/SpecSyntax.v
theories/SpecVisitors.v
theories/ExprFacts.v
theories/CopyFacts.v
theories/VisitorFacts.v
theories/EqFacts.v
theories/DegreeFacts.v
theories/PropExpr.v
theories/Expansion.v
theories/SpecExpansion.v
theories/ExpansionFacts.v
theories/PropExpansion.v
theories/LinearExpr.v
theories/Linearize.v
theories/LinearHeap.v
theories/SpecLinear.v
theories/LinearFacts.v
theories/LinearOpsFacts.v
theories/HeapFacts.v
theories/PropLinear.v
theories/Model.v
theories/Study.v
theories/Strategy.v
theories/Optim.v
theories/SpecModel.v
theories/ModelFacts.v
theories/NetHeap.v
theories/NetHeapFacts.v
theories/PropModel.v
theories/SpecOptim.v
theories/OptimFacts.v
theories/OptimMeaning.v
theories/MentionFacts.v
theories/OptimProblem.v
theories/OptimNames.v
theories/ExampleProblem.v
theories/PropOptim.v
theories/System.v
theories/SpecSystem.v
theories/SystemFacts.v
theories/PropSystem.v
theories/Parse.v
theories/SpecParse.v
theories/LexFacts.v
theories/ParseFacts.v
theories/ParseMeaning.v
theories/PropParse.v
theories/Library.v
theories/SpecLibrary.v
theories/LibraryFacts.v
theories/PropLibrary.v
theories/Output.v
theories/SpecOutput.v
theories/OutputFacts.v
theories/PropOutput.v
theories/Tree.v
theories/SpecTree.v
theories/TreeFacts.v
theories/PropTree.v
theories/ModelEq.v
theories/SpecModelEq.v
theories/ModelEqFacts.v
theories/SpecValid.v
theories/ValidFacts.v
theories/PropValid.v
theories/Fusion.v
theories/SpecFusion.v
theories/FusionFacts.v
theories/PropFusion.v
theories/Benders.v
theories/SpecBenders.v
theories/BuiltFacts.v
theories/BendersFacts.v
theories/CouplerFacts.v
theories/DecompositionFacts.v
theories/StructureFacts.v
theories/PropBenders.v
theories/Thermal.v
theories/SpecThermal.v
theories/ThermalFacts.v
theories/PropThermal.v
theories/Print.v
theories/SpecPrint.v
theories/PrintFacts.v
theories/PropPrint.v
theories/Main.v
theories/SpecMain.v
theories/TextFacts.v
theories/MainFacts.v
theories/MainNeeds.v
theories/PropMain.v
theories/Pypsa.v
theories/SpecPypsa.v
theories/PypsaFacts.v
theories/PypsaAccept.v
theories/PypsaReading.v
theories/PypsaStudy.v
theories/PypsaProblem.v
theories/PropPypsa.v
theories/Antares.v
theories/SpecAntares.v
theories/AntaresFacts.v
theories/PropAntares.v
theories/AntaresReading.v
theories/AntaresStudy.v
theories/AntaresProblem.v
theories/PropAntaresRun.v
theories/SpecReady.v
theories/ReadyFacts.v
theories/OptimReady.v
theories/SpecRun.v
theories/ReadyText.v
theories/MainReady.v
theories/MainLoad.v
theories/PropReady.v
theories/ReadyValue.v
theories/PropRun.v
theories/SpecConvert.v
theories/PypsaReady.v
theories/RunNeeds.v
theories/PypsaNeeds.v
theories/SpecAntaresRun.v
theories/AntaresReady.v
theories/AntaresNeeds.v
theories/PropConvertRun.v
theories/PropConvertStudy.v
theories/BendersRun.v
theories/SpecBendersRun.v
theories/BendersRunFacts.v
theories/PropBendersRun.v
theories/SpecDecompose.v
theories/DecomposeFacts.v
theories/DecomposeTree.v
theories/DecomposeColumns.v
theories/PropDecompose.v
theories/SpecOrder.v
theories/OrderFacts.v
theories/OrderProblem.v
theories/OrderFiles.v
theories/PropOrder.v
theories/Yaml.v
theories/SpecYaml.v
theories/YamlFacts.v
theories/YamlConvert.v
theories/PropYaml.v
theories/Cli.v
theories/SpecCli.v
theories/CliFacts.v
theories/CliSays.v
theories/CliOrder.v
theories/PropCli.v
theories/Replicate.v
theories/SpecReplicate.v
theories/ReplicateFacts.v
theories/PropReplicate.v
theories/SpecParts.v
theories/PartsFacts.v
theories/DataFacts.v
theories/PartsFiles.v
theories/PropParts.v
theories/SpecScenarios.v
theories/ScenarioFacts.v
theories/ScenarioCost.v
theories/PropScenarios.v
theories/SpecPrecise.v
theories/PreciseFacts.v
theories/SpecPreciseFiles.v
theories/PreciseProblem.v
theories/MainPrecise.v
theories/PropPrecise.v
theories/PropPreciseFiles.v
theories/SpecAntaresExact.v
theories/AntaresExact.v
theories/AntaresLaws.v
theories/AntaresRuns.v
theories/PropAntaresExact.v
theories/SpecPypsaExact.v
theories/PypsaExact.v
theories/PypsaLaws.v
theories/PropPypsaExact.v
theories/SpecSeparate.v
theories/ScenarioExact.v
theories/PropSeparate.v
theories/ScenarioReady.v
theories/PropScenariosReady.v
theories/SpecBlock.v
theories/BlockFacts.v
theories/PropBlock.v
theories/SpecLoose.v
theories/LooseFacts.v
theories/PropLoose.v
theories/SpecSame.v
theories/ScenarioSame.v
theories/PropSame.v
theories/SpecReorder.v
theories/ScenarioReorder.v
theories/PropReorder.v
theories/SpecRepeat.v
theories/ScenarioRepeat.v
theories/PropRepeat.v
theories/SpecDrop.v
theories/DropFacts.v
theories/ModelChange.v
theories/DropReady.v
theories/PropDrop.v
theories/SpecRisk.v
theories/RiskFacts.v
theories/PropRisk.v
theories/SpecRelax.v
theories/RelaxFacts.v
theories/RelaxReady.v
theories/PropRelax.v
theories/SpecRotate.v
theories/RotateFacts.v
theories/RotateReady.v
theories/PropRotate.v
theories/SpecShare.v
theories/ShareFacts.v
theories/PropShare.v
