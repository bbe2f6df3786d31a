-Q theories Verif
theories/B64Lit.v
theories/DataFinalseg.v
theories/DataLac.v
theories/DataLacOk.v
theories/DataPosseg.v
theories/DataPossegEmitB.v
theories/DataPossegEmitE.v
theories/DataPossegEmitM.v
theories/DataPossegEmitS.v
theories/DataPossegNum.v
theories/DataPossegOk.v
theories/Demo.v
theories/DemoInit.v
theories/DemoPos.v
theories/InstB64.v
theories/InstB64Ext.v
theories/InstCount.v
theories/InstExt.v
theories/InstQ.v
theories/InstR.v
theories/InstRound.v
theories/InstSign.v
theories/ModelAnalyse.v
theories/ModelApi.v
theories/ModelArgs.v
theories/ModelCLI.v
theories/ModelConc.v
theories/ModelDict.v
theories/ModelFinalseg.v
theories/ModelGlobals.v
theories/ModelIdfRace.v
theories/ModelInit.v
theories/ModelLac.v
theories/ModelNames.v
theories/ModelPaddle.v
theories/ModelPair.v
theories/ModelParallel.v
theories/ModelPosEmit.v
theories/ModelPosParallel.v
theories/ModelPosTables.v
theories/ModelPosTimed.v
theories/ModelPosseg.v
theories/ModelRace.v
theories/ModelRankRace.v
theories/ModelSearchRace.v
theories/ModelSearchTimed.v
theories/ModelSeg.v
theories/ModelTables.v
theories/ModelTagLoad.v
theories/ModelTagRace.v
theories/ModelTimed.v
theories/ModelVocab.v
theories/ModelWhoosh.v
theories/ModelWorld.v
theories/ProofsAbsorb.v
theories/ProofsB64Lit.v
theories/ProofsBase.v
theories/ProofsCache.v
theories/ProofsCli.v
theories/ProofsConc.v
theories/ProofsDag.v
theories/ProofsDemo.v
theories/ProofsDict.v
theories/ProofsDictFile.v
theories/ProofsExt.v
theories/ProofsFinalseg.v
theories/ProofsFull.v
theories/ProofsFullOrder.v
theories/ProofsGraph.v
theories/ProofsHealth.v
theories/ProofsHmmErr.v
theories/ProofsIdf.v
theories/ProofsInit.v
theories/ProofsInit2.v
theories/ProofsKeywords.v
theories/ProofsLac.v
theories/ProofsLn.v
theories/ProofsLoad.v
theories/ProofsLocal.v
theories/ProofsMissing.v
theories/ProofsMode.v
theories/ProofsNoHmm.v
theories/ProofsOpt.v
theories/ProofsOrder.v
theories/ProofsPick.v
theories/ProofsPosEmit.v
theories/ProofsPosErr.v
theories/ProofsPosHmm.v
theories/ProofsPosHmm2.v
theories/ProofsPosLocal.v
theories/ProofsPosMissing.v
theories/ProofsPosTables.v
theories/ProofsPosTags.v
theories/ProofsPosseg.v
theories/ProofsPvit.v
theories/ProofsPvit2.v
theories/ProofsRace.v
theories/ProofsRank.v
theories/ProofsRankNear.v
theories/ProofsRankSpec.v
theories/ProofsRegex.v
theories/ProofsRest.v
theories/ProofsSearch.v
theories/ProofsSeg.v
theories/ProofsSolo.v
theories/ProofsSplit.v
theories/ProofsStable.v
theories/ProofsStale.v
theories/ProofsStationary.v
theories/ProofsSuggest.v
theories/ProofsSuggestB.v
theories/ProofsTables.v
theories/ProofsTextrank.v
theories/ProofsTfidf.v
theories/ProofsTotal.v
theories/ProofsUnknown.v
theories/ProofsUserdict.v
theories/ProofsUtf8.v
theories/ProofsVit.v
theories/ProofsWhole.v
theories/ProofsWords.v
theories/ProofsWorld.v
theories/PropsAgain.v
theories/PropsAhead.v
theories/PropsAnalyse.v
theories/PropsArgs.v
theories/PropsAsShipped.v
theories/PropsBackwards.v
theories/PropsCli.v
theories/PropsCommon.v
theories/PropsConc.v
theories/PropsCost.v
theories/PropsCount.v
theories/PropsCut.v
theories/PropsDefault.v
theories/PropsDict.v
theories/PropsExt.v
theories/PropsFile.v
theories/PropsFull.v
theories/PropsFullOrder.v
theories/PropsGlobals.v
theories/PropsGrow.v
theories/PropsHmm.v
theories/PropsHmmErr.v
theories/PropsHmmJoin.v
theories/PropsIdfRace.v
theories/PropsInit.v
theories/PropsJoin.v
theories/PropsKeyFloat.v
theories/PropsKeyOrder.v
theories/PropsLac.v
theories/PropsMissing.v
theories/PropsMixed.v
theories/PropsMode.v
theories/PropsModes.v
theories/PropsNames.v
theories/PropsOrder.v
theories/PropsPaddle.v
theories/PropsPair.v
theories/PropsParallel.v
theories/PropsPlaces.v
theories/PropsPosDefault.v
theories/PropsPosErr.v
theories/PropsPosParallel.v
theories/PropsPosTables.v
theories/PropsPosTimed.v
theories/PropsPosseg.v
theories/PropsRace.v
theories/PropsRaise.v
theories/PropsRankRace.v
theories/PropsRepeat.v
theories/PropsRest.v
theories/PropsRoundErr.v
theories/PropsScaleB.v
theories/PropsSearchRace.v
theories/PropsSearchTimed.v
theories/PropsStationary.v
theories/PropsStop.v
theories/PropsSuggest.v
theories/PropsSuggestB.v
theories/PropsSuggestB2.v
theories/PropsTables.v
theories/PropsTagLoad.v
theories/PropsTagRace.v
theories/PropsTagger.v
theories/PropsTextrank.v
theories/PropsTfidfErr.v
theories/PropsTimed.v
theories/PropsTimed2.v
theories/PropsTokens.v
theories/PropsTotal.v
theories/PropsUndo.v
theories/PropsUnknown.v
theories/PropsUnused.v
theories/PropsVocab.v
theories/PropsWhoosh.v
theories/PropsWorld.v
theories/PropsWriting.v
theories/PyBase.v
theories/PyNum.v
theories/PyRegex.v
theories/PyUtf8.v
theories/SpecAnalyse.v
theories/SpecApi.v
theories/SpecBase.v
theories/SpecCli.v
theories/SpecConc.v
theories/SpecDict.v
theories/SpecExt.v
theories/SpecFull.v
theories/SpecFullOrder.v
theories/SpecHealth.v
theories/SpecHmm.v
theories/SpecHmmErr.v
theories/SpecInit.v
theories/SpecLac.v
theories/SpecLines.v
theories/SpecLog.v
theories/SpecMissing.v
theories/SpecMode.v
theories/SpecNum.v
theories/SpecOrder.v
theories/SpecPaddle.v
theories/SpecPlaces.v
theories/SpecPosErr.v
theories/SpecPosMissing.v
theories/SpecPosTables.v
theories/SpecPosseg.v
theories/SpecRoundErr.v
theories/SpecScore.v
theories/SpecSeg.v
theories/SpecStationary.v
theories/SpecStop.v
theories/SpecTables.v
theories/SpecTagger.v
theories/SpecTagging.v
theories/SpecTextrank.v
theories/SpecUnknown.v
theories/SpecVocab.v
theories/SpecWorld.v
