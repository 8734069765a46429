-Q theories Verif
theories/ModelAns.v
theories/ModelArgs.v
theories/ModelBits.v
theories/ModelBlend.v
theories/ModelCapi.v
theories/ModelCdf.v
theories/ModelCmd.v
theories/ModelCodec.v
theories/ModelContextLut.v
theories/ModelCrc.v
theories/ModelCrcSse.v
theories/ModelCrcTable.v
theories/ModelCustomAlloc.v
theories/ModelDebug.v
theories/ModelDec.v
theories/ModelDivLut0.v
theories/ModelDivLut1.v
theories/ModelDivLut2.v
theories/ModelDivLut3.v
theories/ModelEnc.v
theories/ModelExample.v
theories/ModelFfi.v
theories/ModelForecast.v
theories/ModelHeader.v
theories/ModelHooks.v
theories/ModelHybrid.v
theories/ModelIo.v
theories/ModelIoThread.v
theories/ModelIr.v
theories/ModelLine.v
theories/ModelLineText.v
theories/ModelLit.v
theories/ModelLutGen.v
theories/ModelMeasure.v
theories/ModelMem.v
theories/ModelMux.v
theories/ModelPm.v
theories/ModelPriors.v
theories/ModelRaw.v
theories/ModelRawEnc.v
theories/ModelRecode.v
theories/ModelSet.v
theories/ModelSimd.v
theories/ModelText.v
theories/ModelThread.v
theories/ModelTool.v
theories/ModelToolHybrid.v
theories/ModelToolThread.v
theories/ModelTop.v
theories/ModelTuned.v
theories/Prelude.v
theories/ProofAns.v
theories/ProofAnsDec.v
theories/ProofAnsRt.v
theories/ProofArgs.v
theories/ProofArgs2.v
theories/ProofBits.v
theories/ProofBlend.v
theories/ProofCapi.v
theories/ProofCapiThread.v
theories/ProofCdf.v
theories/ProofCheck.v
theories/ProofCodecInv.v
theories/ProofCodecInv2.v
theories/ProofCopy.v
theories/ProofCost.v
theories/ProofCrc.v
theories/ProofCustomAlloc.v
theories/ProofDebug.v
theories/ProofDec1.v
theories/ProofDec2.v
theories/ProofDec3.v
theories/ProofDec4.v
theories/ProofDec5.v
theories/ProofDec6.v
theories/ProofDec7.v
theories/ProofDict.v
theories/ProofEnc.v
theories/ProofEnc2.v
theories/ProofEnc3.v
theories/ProofEnc4.v
theories/ProofExample.v
theories/ProofExample2.v
theories/ProofExample3.v
theories/ProofFfi.v
theories/ProofFinal.v
theories/ProofForecast.v
theories/ProofGreedy.v
theories/ProofGuard1.v
theories/ProofGuard2.v
theories/ProofGuard3.v
theories/ProofGuard4.v
theories/ProofGuard5.v
theories/ProofGuard6.v
theories/ProofGuard7.v
theories/ProofGuard8.v
theories/ProofHeader.v
theories/ProofHooks.v
theories/ProofHostile.v
theories/ProofHybrid.v
theories/ProofHybrid2.v
theories/ProofHybrid3.v
theories/ProofIo.v
theories/ProofIo2.v
theories/ProofIoThread.v
theories/ProofIoThread2.v
theories/ProofIr.v
theories/ProofLearn.v
theories/ProofLine.v
theories/ProofList.v
theories/ProofLit.v
theories/ProofMeasure.v
theories/ProofMem.v
theories/ProofMux.v
theories/ProofMuxR.v
theories/ProofMuxW.v
theories/ProofOrigin.v
theories/ProofOrigin2.v
theories/ProofOrigin3.v
theories/ProofOrigin4.v
theories/ProofPm.v
theories/ProofRawEnc.v
theories/ProofRawEnc2.v
theories/ProofRecode.v
theories/ProofRecode2.v
theories/ProofRecode3.v
theories/ProofRun.v
theories/ProofSet.v
theories/ProofSim.v
theories/ProofSimd.v
theories/ProofStrict.v
theories/ProofTany.v
theories/ProofText.v
theories/ProofText2.v
theories/ProofText3.v
theories/ProofTg1.v
theories/ProofTg2.v
theories/ProofTg3.v
theories/ProofTg4.v
theories/ProofThread1.v
theories/ProofThread2.v
theories/ProofThread3.v
theories/ProofThread4.v
theories/ProofThread5.v
theories/ProofThread6.v
theories/ProofThread7.v
theories/ProofTool.v
theories/ProofToolThread.v
theories/ProofTop.v
theories/ProofTuned.v
theories/ProofWeights.v
theories/ProofWire.v
theories/ProofWire2.v
theories/ProofWorst.v
theories/ProofZlist.v
theories/SpecAns.v
theories/SpecArgs.v
theories/SpecBits.v
theories/SpecBlend.v
theories/SpecCapi.v
theories/SpecCdf.v
theories/SpecCheck.v
theories/SpecCodec.v
theories/SpecCost.v
theories/SpecCrc.v
theories/SpecCustomAlloc.v
theories/SpecDebug.v
theories/SpecDec.v
theories/SpecEnc.v
theories/SpecExample.v
theories/SpecFfi.v
theories/SpecFile.v
theories/SpecFinal.v
theories/SpecForecast.v
theories/SpecFrame.v
theories/SpecGuard.v
theories/SpecHand.v
theories/SpecHeader.v
theories/SpecHooks.v
theories/SpecHostile.v
theories/SpecHybrid.v
theories/SpecIo.v
theories/SpecIr.v
theories/SpecLearn.v
theories/SpecLine.v
theories/SpecLineText.v
theories/SpecLz.v
theories/SpecMeasure.v
theories/SpecMem.v
theories/SpecMux.v
theories/SpecOrigin.v
theories/SpecRaw.v
theories/SpecRawEnc.v
theories/SpecReplay.v
theories/SpecSet.v
theories/SpecSimd.v
theories/SpecStrict.v
theories/SpecTany.v
theories/SpecText.v
theories/SpecTguard.v
theories/SpecThread.v
theories/SpecTool.v
theories/SpecTuned.v
theories/SpecWeights.v
theories/SpecWire.v
theories/SpecWorst.v
theories/ThmAns.v
theories/ThmArgs.v
theories/ThmBits.v
theories/ThmBlend.v
theories/ThmCapi.v
theories/ThmCapiDefault.v
theories/ThmCdf.v
theories/ThmCheck.v
theories/ThmCodec.v
theories/ThmCost.v
theories/ThmCrc.v
theories/ThmCrcSse.v
theories/ThmCustomAlloc.v
theories/ThmDebug.v
theories/ThmDec.v
theories/ThmEnc.v
theories/ThmExample.v
theories/ThmExample2.v
theories/ThmFfi.v
theories/ThmFinal.v
theories/ThmForecast.v
theories/ThmFrame.v
theories/ThmGreedy.v
theories/ThmGuard.v
theories/ThmHand.v
theories/ThmHeader.v
theories/ThmHooks.v
theories/ThmHostile.v
theories/ThmHybrid.v
theories/ThmIo.v
theories/ThmIoThread.v
theories/ThmIr.v
theories/ThmLearn.v
theories/ThmLine.v
theories/ThmLineText.v
theories/ThmLutGen.v
theories/ThmMeasure.v
theories/ThmMem.v
theories/ThmMux.v
theories/ThmOrigin.v
theories/ThmPriors.v
theories/ThmRaw.v
theories/ThmRawEnc.v
theories/ThmRecode.v
theories/ThmSet.v
theories/ThmSimd.v
theories/ThmStrict.v
theories/ThmTany.v
theories/ThmText.v
theories/ThmTguard.v
theories/ThmThread.v
theories/ThmTool.v
theories/ThmToolHybrid.v
theories/ThmToolThread.v
theories/ThmTuned.v
theories/ThmWeights.v
theories/ThmWire.v
theories/ThmWorst.v
