-Q theories Verif
theories/ZList.v
theories/ZListMod.v
theories/Base.v
theories/RcaModel.v
theories/RcaSpec.v
theories/RcaExec.v
theories/RcaInv.v
theories/RcaOwn.v
theories/RcaRel.v
theories/RcaRel2.v
theories/RcaMod.v
theories/RcaCtor.v
theories/RcaMisc.v
theories/RcaMeet.v
theories/RcaMain.v
theories/RcaReach.v
theories/RcaFacts.v
theories/RcaFacts2.v
theories/RcaEx.v
theories/PropsRca.v
theories/StrModel.v
theories/StrSpec.v
theories/StrCmp.v
theories/StrFind.v
theories/StrAlg.v
theories/StrEx.v
theories/PropsStr.v
theories/B64Model.v
theories/B64Spec.v
theories/B64Proof.v
theories/PropsB64.v
theories/CstrModel.v
theories/CstrSpec.v
theories/CstrProof.v
theories/PropsCstr.v
theories/StreamSpec.v
theories/StreamModel.v
theories/StreamMeet.v
theories/StreamProof.v
theories/PropsStream.v
theories/AtomicSpec.v
theories/AtomicModel.v
theories/AtomicProof.v
theories/AtomicName.v
theories/AtomicMain.v
theories/AtomicEx.v
theories/PropsAtomic.v
theories/HashSpec.v
theories/HashModel.v
theories/HashProof.v
theories/PropsHash.v
theories/ArrSpec.v
theories/ArrModel.v
theories/ArrProof.v
theories/PropsArr.v
theories/IsSpec.v
theories/IsModel.v
theories/IsProof.v
theories/PropsIs.v
theories/CleanseSpec.v
theories/CleanseModel.v
theories/CleanseProof.v
theories/PropsCleanse.v
theories/GrowModel.v
theories/GrowProof.v
theories/GrowFloat.v
theories/PropsGrow.v
theories/ScriptModel.v
theories/ScriptSpec.v
theories/ScriptProof.v
theories/PropsScript.v
theories/RegModel.v
theories/RegSpec.v
theories/RegProof.v
theories/PropsReg.v
theories/ConModel.v
theories/ConSpec.v
theories/ConProof.v
theories/ConSerial.v
theories/ConEx.v
theories/PropsCon.v
theories/VarModel.v
theories/VarSpec.v
theories/VarProof.v
theories/PropsVar.v
theories/CallModel.v
theories/CallSpec.v
theories/CallProof.v
theories/PropsCall.v
theories/LifeModel.v
theories/LifeSpec.v
theories/LifeLeaves.v
theories/LifeInv.v
theories/LifeStep.v
theories/LifeOps.v
theories/LifeCalls.v
theories/LifeMain.v
theories/LifeThm.v
theories/LifeKeep.v
theories/LifeShow.v
theories/LifeFill.v
theories/LifeEx.v
theories/PropsLife.v
theories/AlgModel.v
theories/AlgMeet.v
theories/AlgRules.v
theories/AlgSub.v
theories/AlgShare.v
theories/AlgSplit.v
theories/AlgFacts.v
theories/AlgEx.v
theories/PropsAlg.v
theories/PtrSpec.v
theories/PtrProof.v
theories/PropsPtr.v
theories/StdioModel.v
theories/StdioSpec.v
theories/StdioMeet.v
theories/StdioProof.v
theories/PropsStdio.v
theories/OperModel.v
theories/OperMeet.v
theories/OperProof.v
theories/PropsOper.v
theories/HsModel.v
theories/HsMeet.v
theories/HsProof.v
theories/PropsHs.v
theories/IshModel.v
theories/IshMeet.v
theories/IshProof.v
theories/PropsIsh.v
theories/OsSpec.v
theories/OsModel.v
theories/OsProof.v
theories/OsBack.v
theories/PropsOs.v
theories/ExpModel.v
theories/ExpMeet.v
theories/ExpProof.v
theories/PropsExp.v
theories/CntModel.v
theories/CntMeet.v
theories/CntProof.v
theories/CntEx.v
theories/PropsCnt.v
theories/B64hModel.v
theories/B64hMeet.v
theories/B64hProof.v
theories/PropsB64h.v
theories/HtModel.v
theories/HtMeet.v
theories/HtProof.v
theories/PropsHt.v
theories/TobModel.v
theories/TobMeet.v
theories/TobProof.v
theories/PropsTob.v
theories/NestModel.v
theories/NestMeet.v
theories/NestSim.v
theories/NestAbs.v
theories/NestBuf.v
theories/NestOps.v
theories/NestCalls.v
theories/NestNames.v
theories/NestProof.v
theories/NestMain.v
theories/NestReach.v
theories/NestEx.v
theories/PropsNest.v
theories/AliasModel.v
theories/AliasSpec.v
theories/AliasProof.v
theories/PropsAlias.v
theories/NestAlgModel.v
theories/NestAlgMeet.v
theories/NestAlgRules.v
theories/NestAlgProof.v
theories/NestAlgFacts.v
theories/NestAlgEx.v
theories/PropsNestAlg.v
theories/SaveSpec.v
theories/SaveModel.v
theories/SaveProof.v
theories/SaveMain.v
theories/SaveLoad.v
theories/PropsSave.v
theories/MstSpec.v
theories/MstModel.v
theories/MstMeet.v
theories/MstProof.v
theories/MstEx.v
theories/PropsMst.v
theories/PtSpec.v
theories/PtModel.v
theories/PtMeet.v
theories/PtQuiet.v
theories/PtFlags.v
theories/PtProof.v
theories/PtCall.v
theories/PtEx.v
theories/PropsPt.v
theories/LibSpec.v
theories/LibModel.v
theories/LibMeet.v
theories/LibProof.v
theories/LibEx.v
theories/PropsLib.v
theories/DbgMeet.v
theories/DbgProof.v
theories/DbgEx.v
theories/PropsDbg.v
theories/IterSpec.v
theories/IterModel.v
theories/IterMeet.v
theories/IterProof.v
theories/IterMove.v
theories/PropsIter.v
theories/MfSpec.v
theories/MfModel.v
theories/MfMeet.v
theories/MfLoad.v
theories/MfProof.v
theories/MfEx.v
theories/PropsMf.v
theories/AppSpec.v
theories/AppModel.v
theories/AppMeet.v
theories/AppSim.v
theories/AppProof.v
theories/AppStore.v
theories/AppEx.v
theories/PropsApp.v
theories/TioSpec.v
theories/TioModel.v
theories/TioMeet.v
theories/TioProof.v
theories/TioBack.v
theories/TioEx.v
theories/PropsTio.v
theories/QueueModel.v
theories/QueueProof.v
theories/QueueRun.v
theories/PropsQueue.v
theories/BuildModel.v
theories/BuildSpec.v
theories/BuildProof.v
theories/BuildRun.v
theories/PropsBuild.v
