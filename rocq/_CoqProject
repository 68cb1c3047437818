-Q theories Verif
theories/Base.v
theories/ModelUtil.v
theories/ModelBstr.v
theories/ModelParsers.v
theories/ModelBestfit.v
theories/ModelUrl.v
theories/ModelUtf8.v
theories/ModelUri.v
theories/ModelHeaders.v
theories/ModelState.v
theories/ModelTx.v
theories/ModelConn.v
theories/ModelDecomp.v
theories/ModelHook.v
theories/SpecTx.v
theories/ProofsTx.v
theories/PropertiesTx.v
theories/TestsHeaders.v
theories/TestsConn.v
theories/ProofsHeaders.v
theories/PropertiesHeaders.v
theories/Spec.v
theories/ProofsBase.v
theories/ProofsBstr.v
theories/ProofsParsers.v
theories/ProofsUrl.v
theories/ProofsUri.v
theories/ProofsUtf8.v
theories/PropertiesText.v
theories/PropertiesUrl.v
theories/SpecConn.v
theories/SpecFlow.v
theories/ProofsConn.v
theories/ProofsCore.v
theories/ProofsStep.v
theories/ProofsStepResp.v
theories/ProofsLoop.v
theories/ProofsHist.v
theories/PropertiesConn.v
theories/ProofsQuiet.v
theories/ProofsHonest.v
theories/ProofsRel.v
theories/ProofsOnce.v
theories/ProofsOwner.v
theories/PropertiesFlow.v
theories/ProofsEval.v
theories/ProofsBody.v
theories/SpecMsg.v
theories/SpecResp.v
theories/ProofsHead.v
theories/ProofsFrame.v
theories/ProofsStream.v
theories/ProofsChunk.v
theories/ProofsMsg.v
theories/ProofsRStream.v
theories/ProofsRHead.v
theories/ProofsRBody.v
theories/ProofsRMsg.v
theories/ProofsTalk.v
theories/SpecWeave.v
theories/ProofsWeave.v
theories/ProofsSchedule.v
theories/PropertiesMsg.v
theories/PropertiesResp.v
theories/PropertiesWeave.v
theories/SpecDecomp.v
theories/ProofsDecomp.v
theories/ProofsInflate.v
theories/ProofsGzip.v
theories/ProofsBomb.v
theories/ProofsLayers.v
theories/ProofsDeliver.v
theories/ProofsToy.v
theories/PropertiesDecomp.v
theories/SpecHost.v
theories/ProofsHost.v
theories/PropertiesHost.v
theories/SpecLine.v
theories/ProofsLine.v
theories/SpecField.v
theories/ProofsField.v
theories/SpecOdd.v
theories/ProofsOdd.v
theories/SpecStage.v
theories/ProofsStage.v
theories/PropertiesStage.v
theories/SpecBytes.v
theories/ProofsBytes.v
theories/PropertiesBytes.v
theories/SpecDecode.v
theories/ProofsDecode.v
theories/SpecNorm.v
theories/ProofsNorm.v
theories/SpecUtf8.v
theories/ProofsUtf8Read.v
theories/PropertiesDecode.v
theories/SpecTwo.v
theories/ProofsTwo.v
theories/ProofsTwoRuns.v
theories/SpecLimit.v
theories/ProofsLimit.v
theories/PropertiesTwo.v
theories/ModelConfig.v
theories/SpecConfig.v
theories/ProofsConfig.v
theories/PropertiesConfig.v
theories/ModelCApi.v
theories/SpecCApi.v
theories/ProofsCApi.v
theories/PropertiesCApi.v
theories/PropertiesLine.v
theories/PropertiesField.v
theories/PropertiesOdd.v
theories/SpecCoding.v
theories/ProofsCoding.v
theories/PropertiesCoding.v
theories/SpecSplit.v
theories/ProofsSplit.v
theories/PropertiesSplit.v
theories/SpecEnd.v
theories/ProofsEnd.v
theories/ProofsClose.v
theories/PropertiesEnd.v
theories/SpecConnect.v
theories/ProofsConnect.v
theories/ProofsConnect2.v
theories/ProofsConnect3.v
theories/ProofsConnect4.v
theories/ProofsConnect5.v
theories/PropertiesConnect.v
theories/SpecInterim.v
theories/ProofsInterim.v
theories/ProofsInterim2.v
theories/ProofsInterim3.v
theories/PropertiesInterim.v
theories/SpecUpgrade.v
theories/ProofsUpgrade.v
theories/PropertiesUpgrade.v
theories/SpecOld.v
theories/ProofsOld.v
theories/PropertiesOld.v
theories/SpecLoss.v
theories/ProofsLoss.v
theories/PropertiesLoss.v
theories/SpecRLoss.v
theories/ProofsRLoss.v
theories/PropertiesRLoss.v
theories/SpecCut.v
theories/ProofsCut.v
theories/PropertiesCut.v
theories/SpecRCut.v
theories/ProofsRCut.v
theories/PropertiesRCut.v
theories/SpecRShort.v
theories/ProofsRShort.v
theories/PropertiesRShort.v
theories/SpecHalf.v
theories/ProofsHalf.v
theories/PropertiesHalf.v
theories/SpecClear.v
theories/ProofsClear.v
theories/PropertiesClear.v
theories/SpecIdle.v
theories/ProofsIdle.v
theories/PropertiesIdle.v
theories/SpecPause.v
theories/ProofsPause.v
theories/PropertiesPause.v
theories/SpecWait.v
theories/ProofsWait.v
theories/PropertiesWait.v
