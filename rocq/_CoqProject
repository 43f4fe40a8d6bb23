-Q theories Verif
theories/MSolver.v
theories/LSolver.v
theories/PSolver.v
theories/MHeun.v
theories/SHeun.v
theories/LHeun.v
theories/LHeunOrder.v
theories/LHeunEx.v
theories/LHeunTol.v
theories/SHeunSys.v
theories/LHeunSys.v
theories/LHeunEx3.v
theories/LHeunEx2.v
theories/PHeun.v
theories/MRun.v
theories/SRun.v
theories/LRun.v
theories/PRun.v
theories/MFlow.v
theories/SFlow.v
theories/LFlow.v
theories/PFlow.v
theories/MNet.v
theories/SNet.v
theories/LNet.v
theories/PNet.v
theories/LPoly.v
theories/MWater.v
theories/LWater.v
theories/PWater.v
theories/MDiff.v
theories/SDiff.v
theories/LDiff.v
theories/LDiff2.v
theories/LDiff3.v
theories/LDiff4.v
theories/LDiff5.v
theories/LDiff6.v
theories/LDiff7.v
theories/PDiff.v
theories/MMix.v
theories/SMix.v
theories/LMix.v
theories/LHex.v
theories/PMix.v
theories/MChp.v
theories/SChp.v
theories/LChp.v
theories/LChpCurve.v
theories/LChpRun.v
theories/LChpEx.v
theories/PChp.v
theories/MBC.v
theories/SBC.v
theories/LBC.v
theories/PBC.v
theories/MPorts.v
theories/LPorts.v
theories/PPorts.v
theories/MSettings.v
theories/PSettings.v
theories/MPortCond.v
theories/PPortCond.v
theories/MCtrl.v
theories/SCtrl.v
theories/LDead.v
theories/LCtrl.v
theories/LCtrl2.v
theories/PCtrl.v
theories/PCtrl2.v
theories/PCtrl3.v
theories/PCtrl4.v
theories/MMpcCost.v
theories/MMpc.v
theories/LMpcCost.v
theories/LMpc.v
theories/PMpcCost.v
theories/PMpcPlan.v
theories/PMpcCtl.v
theories/MPreopt.v
theories/PPreopt.v
theories/MMeters.v
theories/PMeters.v
theories/MErr.v
theories/PErr.v
theories/MTopo.v
theories/STopo.v
theories/LTopo.v
theories/LTopo2.v
theories/LTopo3.v
theories/LTopo4.v
theories/LTopo5.v
theories/LTopo6.v
theories/LTopo7.v
theories/PTopo.v
theories/MChannel.v
theories/PChannel.v
theories/MHexNum.v
theories/SHexNum.v
theories/LHexNum.v
theories/LHexNum2.v
theories/LHexNum3.v
theories/LHexNum4.v
theories/LHexNum5.v
theories/PHexNum.v
theories/MCond.v
theories/SCond.v
theories/LCond.v
theories/LCond2.v
theories/LCond3.v
theories/LCond4.v
theories/PCond.v
theories/MGeom.v
theories/SGeom.v
theories/LGeom.v
theories/LGeom2.v
theories/PGeom.v
theories/MSpecs.v
theories/PSpecs.v
theories/LAlpha.v
theories/LAlpha2.v
theories/PAlpha.v
theories/MImpl.v
theories/LImpl.v
theories/LImpl2.v
theories/PImpl.v
theories/MOut.v
theories/LOut.v
theories/LOut2.v
theories/POut.v
theories/MWatch.v
theories/PWatch.v
theories/MReset.v
theories/PReset.v
theories/MPerf.v
theories/LPerf.v
theories/PPerf.v
theories/MResample.v
theories/PResample.v
theories/MBcSeries.v
theories/PBcSeries.v
theories/MRoll.v
theories/PRoll.v
theories/MRoot.v
theories/PRoot.v
theories/MAvg.v
theories/PAvg.v
theories/MStore.v
theories/MSeries.v
theories/PStore.v
theories/PSeries.v
theories/LPoly2.v
theories/MHumid.v
theories/PHumid.v
theories/MProfile.v
theories/PProfile.v
theories/MPipeDb.v
theories/PPipeDb.v
theories/MRange.v
theories/SRange.v
theories/LRange.v
theories/LRange2.v
theories/LRange3.v
theories/PRange.v
theories/SNetHeat.v
theories/PNetHeat.v
theories/MReport.v
theories/PReport.v
theories/MFlowMeter.v
theories/PFlowMeter.v
theories/MModules.v
theories/LModules.v
theories/PModules.v
theories/MPlates.v
theories/PPlates.v
theories/MSensor.v
theories/PSensor.v
theories/MSizing.v
theories/PSizing.v
theories/MPlateGeo.v
theories/PPlateGeo.v
theories/MPack.v
theories/PPack.v
theories/MPy.v
theories/LPy.v
theories/MSrcSim.v
theories/MSrcPre.v
theories/MSrcUt.v
theories/MSrcParts.v
theories/PPy.v
theories/MCall.v
theories/MSrcCalls.v
theories/PCall.v
theories/PKde.v
theories/MSrcInit.v
theories/PInit.v
theories/MReturn.v
theories/PReturn.v
theories/MAlias.v
theories/MSrcAlias.v
theories/LAlias.v
theories/MShared.v
theories/PAlias.v
theories/MUnits.v
theories/MSrcUnits.v
theories/SUnits.v
theories/LUnits.v
theories/PUnits.v
theories/MMessages.v
theories/MSrcMessages.v
theories/SMessages.v
theories/LMessages.v
theories/PMessages.v
theories/MShapes.v
theories/MSrcShapes.v
theories/SShapes.v
theories/LShapes.v
theories/PShapes.v
theories/MAssign.v
theories/PAssign.v
theories/MFlowReset.v
theories/PFlowReset.v
theories/MChpReset.v
theories/PChpReset.v
theories/MUncontrolled.v
theories/PUncontrolled.v
theories/MPortKeys.v
theories/SPortKeys.v
theories/LPortKeys.v
theories/PPortKeys.v
theories/LChpWarm.v
theories/PChpWarm.v
theories/MReyCorr.v
theories/SReyCorr.v
theories/LReyCorr.v
theories/PReyCorr.v
theories/SApart.v
theories/LApart.v
theories/PApart.v
theories/SMirror.v
theories/LMirror.v
theories/PMirror.v
theories/PMirror2.v
theories/SRest.v
theories/LRest.v
theories/LRest2.v
theories/PRest.v
theories/PRest2.v
theories/SSteady.v
theories/LSteady.v
theories/LSteady2.v
theories/PSteady.v
theories/SPiece.v
theories/LPiece.v
theories/LPiece2.v
theories/LPiece3.v
theories/LPiece4.v
theories/PPiece.v
theories/MSetup.v
theories/LSetup.v
theories/PSetup.v
theories/SInsul.v
theories/LInsul.v
theories/LInsul2.v
theories/PInsul.v
theories/SSurf.v
theories/LSurf.v
theories/LSurf2.v
theories/LInsul3.v
theories/PSurf.v
theories/MDbs.v
theories/PDbs.v
