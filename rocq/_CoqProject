-Q theories Verif
theories/Prelude.v
theories/PreludeProofs.v
theories/Pddl.v
theories/VocabModel.v
theories/SnapshotModel.v
theories/MatcherModel.v
theories/SamModel.v
theories/StripsSpec.v
theories/VocabProofs.v
theories/SamSpec.v
theories/SamProofs.v
theories/SamFinal.v
theories/SamBatches.v
theories/StripsExec.v
theories/SamResults.v
theories/SamProperties.v
theories/Checks.v
theories/SamExamples.v
theories/CnfModel.v
theories/MaModel.v
theories/CnfSpec.v
theories/CnfProofs.v
theories/MaSpec.v
theories/MaMatch.v
theories/MaCnf.v
theories/MaProofs.v
theories/MaFinal.v
theories/MaSafety.v
theories/MaProperties.v
theories/MaExamples.v
theories/LogicModel.v
theories/LogicSpec.v
theories/LogicProofs.v
theories/DepModel.v
theories/DepSpec.v
theories/DepProofs.v
theories/LogicProperties.v
theories/LogicExamples.v
theories/TextModel.v
theories/TextSpec.v
theories/TextProofs.v
theories/TextProperties.v
theories/TextExamples.v
theories/CondModel.v
theories/CondSpec.v
theories/CondProofs.v
theories/CondFinal.v
theories/CondSafety.v
theories/CondChecks.v
theories/CondProperties.v
theories/CondExamples.v
theories/QueueModel.v
theories/QueueSpec.v
theories/QueueProofs.v
theories/QueueProperties.v
theories/QueueExamples.v
theories/StatsModel.v
theories/StatsSpec.v
theories/StatsProofs.v
theories/OnlineModel.v
theories/OnlineSpec.v
theories/OnlineProofs.v
theories/OnlineJoint.v
theories/IntervalModel.v
theories/IntervalSpec.v
theories/IntervalProofs.v
theories/TrainModel.v
theories/TrainSpec.v
theories/TrainProofs.v
theories/OnlineProperties.v
theories/OnlineExamples.v
theories/MacroModel.v
theories/MacroSpec.v
theories/GroupProofs.v
theories/MacroText.v
theories/MacroMapping.v
theories/MacroShape.v
theories/MacroGroups.v
theories/MacroSafety.v
theories/MacroWhole.v
theories/MacroProperties.v
theories/MacroExamples.v
theories/ValidateModel.v
theories/ValidateSpec.v
theories/ValidateProofs.v
theories/PerfModel.v
theories/PerfSpec.v
theories/PerfProofs.v
theories/StatsProperties.v
theories/StatsExamples.v
theories/AgentModel.v
theories/AgentSpec.v
theories/AgentProofs.v
theories/EpisodeModel.v
theories/EpisodeSpec.v
theories/EpisodeProofs.v
theories/EpisodeProperties.v
theories/EpisodeExamples.v
theories/FoldModel.v
theories/FoldSpec.v
theories/FoldProofs.v
theories/DummyModel.v
theories/DummySpec.v
theories/DummyProofs.v
theories/FoldProperties.v
theories/FoldExamples.v
theories/NumModel.v
theories/NumSpec.v
theories/NumProofs.v
theories/MonoProofs.v
theories/HullModel.v
theories/HullSpec.v
theories/HullProofs.v
theories/HullObserved.v
theories/HullSafe.v
theories/RegModel.v
theories/RegSpec.v
theories/RegProofs.v
theories/NumProperties.v
theories/NumExamples.v
theories/SvmModel.v
theories/SvmSpec.v
theories/SvmProofs.v
theories/SvmProperties.v
theories/SvmExamples.v
theories/BfsModel.v
theories/BfsSpec.v
theories/BfsProofs.v
theories/BfsProperties.v
theories/BfsExamples.v
theories/RegAffine.v
theories/NsamModel.v
theories/NsamSpec.v
theories/NsamMatch.v
theories/NsamStore.v
theories/NsamHull.v
theories/NsamSafe.v
theories/NsamLoop.v
theories/NsamProofs.v
theories/NsamOwn.v
theories/NsamFinal.v
theories/NsamProperties.v
theories/NsamExamples.v
theories/HullMean.v
theories/IncModel.v
theories/IncSpec.v
theories/IncRemove.v
theories/IncState.v
theories/IncProofs.v
theories/IncSafe.v
theories/IncClaims.v
theories/IncProperties.v
theories/IncExamples.v
theories/OnumModel.v
theories/OnumSpec.v
theories/OnumProofs.v
theories/OnumTrain.v
theories/OnumClaims.v
theories/OnumInform.v
theories/OnumFinal.v
theories/OnumOptim.v
theories/OnumProperties.v
theories/OnumExamples.v
theories/InsamModel.v
theories/InsamSpec.v
theories/InsamLoop.v
theories/InsamProofs.v
theories/NsamExact.v
theories/InsamFinal.v
theories/InsamProperties.v
theories/InsamExamples.v
theories/EsamModel.v
theories/EsamSpec.v
theories/EsamMerge.v
theories/EsamProofs.v
theories/EsamRun.v
theories/EsamFinal.v
theories/EsamProperties.v
theories/EsamExamples.v
theories/UcModel.v
theories/UcSpec.v
theories/UcLift.v
theories/UcStep.v
theories/UcProofs.v
theories/UcInv.v
theories/UcForm.v
theories/UcGranted.v
theories/UcFinal.v
theories/UcLearn.v
theories/UcSafety.v
theories/UcWhole.v
theories/UcChecks.v
theories/UcProperties.v
theories/UcExamples.v
theories/NoamModel.v
theories/NoamSpec.v
theories/NoamLearn.v
theories/NoamRun.v
theories/NoamSolve.v
theories/NoamPlan.v
theories/NoamFinal.v
theories/NoamProperties.v
theories/NoamExamples.v
theories/SolverModel.v
theories/SolverSpec.v
theories/SolverProofs.v
theories/SolverProperties.v
theories/SolverExamples.v
theories/WalkModel.v
theories/WalkSpec.v
theories/WalkProofs.v
theories/WalkProperties.v
theories/WalkExamples.v
theories/DfoldModel.v
theories/DfoldSpec.v
theories/DfoldProofs.v
theories/DfoldFinal.v
theories/DfoldProperties.v
theories/DfoldExamples.v
theories/LstatModel.v
theories/LstatSpec.v
theories/LstatProofs.v
theories/CollectModel.v
theories/CollectSpec.v
theories/CollectProofs.v
theories/CollectFinal.v
theories/LstatProperties.v
theories/LstatExamples.v
theories/TripletModel.v
theories/TripletSpec.v
theories/TripletProofs.v
theories/TripletLoop.v
theories/TripletInert.v
theories/TripletFinal.v
theories/TripletProperties.v
theories/TripletExamples.v
theories/FaultModel.v
theories/FaultSpec.v
theories/FaultProofs.v
theories/FaultFinal.v
theories/FaultExamples.v
theories/FaultProperties.v
theories/CrossModel.v
theories/CrossSpec.v
theories/CrossProofs.v
theories/CrossFinal.v
theories/CrossFrame.v
theories/CrossProperties.v
theories/CrossExamples.v
theories/SemiModel.v
theories/SemiSpec.v
theories/SemiProofs.v
theories/SemiFinal.v
theories/SemiProperties.v
theories/SemiExamples.v
theories/OcolModel.v
theories/OcolSpec.v
theories/OcolProofs.v
theories/OcolTable.v
theories/OcolFinal.v
theories/OcolProperties.v
theories/OcolExamples.v
theories/PrepModel.v
theories/PrepSpec.v
theories/PrepProofs.v
theories/PrepFinal.v
theories/PrepProperties.v
theories/PrepExamples.v
theories/PilModel.v
theories/PilSpec.v
theories/PilProofs.v
theories/PilFinal.v
theories/PilProperties.v
theories/PilExamples.v
theories/JacModel.v
theories/JacSpec.v
theories/JacProofs.v
theories/JacFinal.v
theories/JacProperties.v
theories/JacExamples.v
theories/DmaModel.v
theories/DmaSpec.v
theories/DmaProofs.v
theories/DmaFinal.v
theories/DmaProperties.v
theories/DmaExamples.v
theories/GenModel.v
theories/GenSpec.v
theories/GenProofs.v
theories/GenProperties.v
theories/GenExamples.v
theories/PmtModel.v
theories/PmtSpec.v
theories/PmtProofs.v
theories/PmtFinal.v
theories/PmtProperties.v
theories/PmtExamples.v
theories/CluModel.v
theories/CluSpec.v
theories/CluProofs.v
theories/CluFinal.v
theories/CluProperties.v
theories/CluExamples.v
theories/PlotModel.v
theories/PlotSpec.v
theories/PlotProofs.v
theories/PlotProperties.v
theories/PlotExamples.v
theories/CresModel.v
theories/CresSpec.v
theories/CresProofs.v
theories/CresProperties.v
theories/CresExamples.v
theories/JobModel.v
theories/JobSpec.v
theories/JobProofs.v
theories/JobFinal.v
theories/JobProperties.v
theories/JobExamples.v
theories/OevModel.v
theories/OevSpec.v
theories/OevProofs.v
theories/OevFinal.v
theories/OevProperties.v
theories/OevExamples.v
theories/CsolModel.v
theories/CsolSpec.v
theories/CsolProofs.v
theories/CsolFinal.v
theories/CsolProperties.v
theories/CsolExamples.v
theories/CancelModel.v
theories/CancelSpec.v
theories/CancelProofs.v
theories/CancelProperties.v
theories/CancelExamples.v
theories/MplotModel.v
theories/MplotSpec.v
theories/MplotProofs.v
theories/MplotProperties.v
theories/MplotExamples.v
