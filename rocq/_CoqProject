-Q theories Verif
theories/PyBase.v
theories/PyLemmas.v
theories/MemoryModel.v
theories/MemorySpec.v
theories/MemoryProofs.v
theories/PropMemory.v
theories/DataConvert.v
theories/ConfigModel.v
theories/ConfigSpec.v
theories/ConfigProofs.v
theories/PropConfig.v
theories/VfuModel.v
theories/VfuSpec.v
theories/VfuProofs.v
theories/PropVfu.v
theories/FloatModel.v
theories/AnalogProofs.v
theories/FloatSpec.v
theories/FloatProofs.v
theories/PropFloat.v
theories/MvmuModel.v
theories/AnalogChain.v
theories/MvmuSpec.v
theories/MvmuLists.v
theories/MvmuLoad.v
theories/MvmuRun.v
theories/MvmuProofs.v
theories/MvmuUse.v
theories/MvmuCount.v
theories/MvmuExamples.v
theories/MvmuTop.v
theories/PropMvmu.v
theories/CoreModel.v
theories/CoreSpec.v
theories/CoreProofs.v
theories/CoreUse.v
theories/CoreInstr.v
theories/PropCore.v
theories/DramModel.v
theories/DramSpec.v
theories/DramProofs.v
theories/DramProgress.v
theories/PropDram.v
theories/PipelineModel.v
theories/PipelineSpec.v
theories/PipelineProofs.v
theories/PipelineTime.v
theories/PropPipeline.v
theories/RouterModel.v
theories/RouterSpec.v
theories/RouterProofs.v
theories/PropRouter.v
theories/SystemModel.v
theories/SystemSpec.v
theories/SystemBase.v
theories/SystemInv.v
theories/SystemOracle.v
theories/SystemDet.v
theories/SystemCopy.v
theories/SystemProofs.v
theories/SystemDeadlock.v
theories/SystemClaims.v
theories/SystemExamples.v
theories/PropSystem.v
theories/NodeModel.v
theories/NodeSpec.v
theories/NodeProofs.v
theories/NodeWipe.v
theories/NodeReset.v
theories/NodeClaims.v
theories/NodeExamples.v
theories/PropNode.v
theories/StatsModel.v
theories/ReportModel.v
theories/ReportSpec.v
theories/StatsProofs.v
theories/ReportProofs.v
theories/ReportNode.v
theories/ReportClaims.v
theories/ReportExamples.v
theories/StatsRoundSpec.v
theories/StatsRound.v
theories/PropReport.v
theories/LoaderModel.v
theories/LoaderSpec.v
theories/LoaderProofs.v
theories/LoaderWeights.v
theories/LoaderParse.v
theories/LoaderAct.v
theories/LoaderClaims.v
theories/LoaderExamples.v
theories/PropLoader.v
theories/SetupModel.v
theories/SetupSpec.v
theories/SetupProofs.v
theories/SetupValues.v
theories/SetupParams.v
theories/SetupBuild.v
theories/SetupExamples.v
theories/PropSetup.v
theories/SimModel.v
theories/SimSpec.v
theories/SimProofs.v
theories/SimReset.v
theories/SimAct.v
theories/SimClaims.v
theories/SimExamples.v
theories/PropSim.v
theories/LiveSpec.v
theories/LiveProofs.v
theories/LiveDet.v
theories/LiveBound.v
theories/LiveSingle.v
theories/LiveExamples.v
theories/LiveClaims.v
theories/PropLive.v
theories/NetTimeSpec.v
theories/NetTime.v
theories/NetTimeExamples.v
theories/PropNetTime.v
theories/NoiseModel.v
theories/NoiseSpec.v
theories/NoiseAnalog.v
theories/NoiseProofs.v
theories/NoiseExamples.v
theories/PropNoise.v
theories/MlpProgram.v
theories/SymMachine.v
theories/MlpRun.v
theories/MlpCheck.v
theories/SymCore.v
theories/SymTile.v
theories/SymNet.v
theories/MvmuAccept.v
theories/MlpSpec.v
theories/MlpLoad.v
theories/MlpProofs.v
theories/MlpClaims.v
theories/MlpExact.v
theories/MlpExamples.v
theories/PropMlp.v
theories/DesModel.v
theories/DesRel.v
theories/DesCtl.v
theories/DesCore.v
theories/DesTile.v
theories/DesRefine.v
theories/DesQueue.v
theories/DesSpec.v
theories/DesRun.v
theories/DesClaims.v
theories/DesMlp.v
theories/DesShipped.v
theories/DesExamples.v
theories/PropDes.v
theories/DesShape.v
theories/DesSkel.v
theories/DesDoneSpec.v
theories/DesDone.v
theories/PropDone.v
theories/DesWait.v
theories/DesWaitCtl.v
theories/DesWaitTile.v
theories/DesWaitStop.v
theories/DesWaitNode.v
theories/DesWaitQueue.v
theories/DesHeapSpec.v
theories/DesHeap.v
theories/DesIdleSpec.v
theories/DesIdle.v
theories/PropWait.v
theories/DesCost.v
theories/DesCostNode.v
theories/DesEndSpec.v
theories/DesEnd.v
theories/PropEnd.v
theories/DesNeed.v
theories/DesNeedCtl.v
theories/DesNeedTile.v
theories/DesNeedOwn.v
theories/DesNeedNode.v
theories/DesNeedQueue.v
theories/DesWedge.v
theories/DesReturnSpec.v
theories/DesReturn.v
theories/DesReturnExamples.v
theories/PropReturn.v
theories/DesLate.v
theories/DesLateRel.v
theories/DesManyModel.v
theories/DesManySpec.v
theories/DesManyQueue.v
theories/DesMany.v
theories/DesManyRun.v
theories/DesManyClaims.v
theories/DesManyExamples.v
theories/PropMany.v
theories/DesManyEnd.v
theories/DesManyResult.v
theories/PropManyEnd.v
theories/DesSettle.v
theories/DesSameSpec.v
theories/DesSame.v
theories/DesSameRun.v
theories/PropSame.v
theories/DesDataSpec.v
theories/DesData.v
theories/DesDataRun.v
theories/DesDataBuilt.v
theories/DesDataExamples.v
theories/DesDataManySpec.v
theories/DesDataMany.v
theories/DesDataManyExamples.v
theories/PropData.v
theories/SetupTicks.v
theories/AdcModel.v
theories/AdcSpec.v
theories/AdcProofs.v
theories/AdcRun.v
theories/AdcExamples.v
theories/PropAdc.v
theories/VisualModel.v
theories/VisualSpec.v
theories/VisualProofs.v
theories/VisualReport.v
theories/VisualExamples.v
theories/PropVisual.v
theories/PrintModel.v
theories/FormulaSpec.v
theories/FormulaHom.v
theories/FormulaBound.v
theories/FormulaRound.v
theories/FormulaPrint.v
theories/FormulaExact.v
theories/FormulaUsual.v
theories/FormulaExamples.v
theories/PropFormula.v
