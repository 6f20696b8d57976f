-Q theories Verif
theories/CSem.v
theories/ModelEndian.v
theories/ModelSha256.v
theories/ModelSha512.v
theories/ModelFips202.v
theories/ModelParams.v
theories/ModelCtx.v
theories/ModelHash.v
theories/ModelSphincs.v
theories/ModelVerify.v
theories/ModelKeygen.v
theories/SpecBytes.v
theories/SpecSha2.v
theories/Arr.v
theories/PfEndian.v
theories/PfBlocks.v
theories/PfSha2Common.v
theories/PfSha256.v
theories/PfSha512.v
theories/Sessions.v
theories/PfHashSessions.v
theories/SpecKeccak.v
theories/PfKeccakLanes.v
theories/PfKeccakBits.v
theories/PfShake.v
theories/PropHash.v
theories/SpecSLH.v
theories/PfIter.v
theories/SpecMap.v
theories/PfEnv.v
theories/PfAdr.v
theories/PfGlueSha.v
theories/SpecResidue.v
theories/PfResidue.v
theories/PfGlue.v
theories/PfMsg.v
theories/PfCtx.v
theories/PfTree.v
theories/PfPaths.v
theories/PfBits.v
theories/PfWots.v
theories/PfSpec.v
theories/PfSign.v
theories/PfVerify.v
theories/SpecApi.v
theories/ModelApi.v
theories/PfApi.v
theories/PfKeygen.v
theories/SpecSessions.v
theories/PfSession.v
theories/PfComplete.v
theories/PropSign.v
theories/PropResidue.v
theories/SpecHeap.v
theories/ModelHeap.v
theories/PfHeap.v
theories/PropHeap.v
theories/SpecLatency.v
theories/PfLatency.v
theories/PropLatency.v
theories/PropVerify.v
theories/PfApi2.v
theories/PropApi.v
theories/PropParams.v
theories/SpecParts.v
theories/PfParts.v
theories/PropParts.v
theories/SpecUses.v
theories/PfUses.v
theories/PropUses.v
theories/SpecForge.v
theories/PfForge.v
theories/PfForge2.v
theories/PropForge.v
theories/SpecReuse.v
theories/PfReuse.v
theories/PropReuse.v
theories/PropCopy.v
theories/PropLifetimes.v
theories/PropRandom.v
theories/PfEUF.v
theories/PropEUF.v
theories/CLeak.v
theories/LeakSha2.v
theories/LeakFips202.v
theories/LeakHash.v
theories/LeakSphincs.v
theories/PfLeakErase.v
theories/PfLeakErase2.v
theories/PfLeakErase3.v
theories/PfLeakSha.v
theories/PfLeakShake.v
theories/PfLeakHash.v
theories/PfLeakSphincs.v
theories/PfLeakInit.v
theories/SpecLeak.v
theories/PfLeakSign.v
theories/PfLeakView.v
theories/PfLeakSession.v
theories/PropLeak.v
theories/LeakVerify.v
theories/PfLeakErase4.v
theories/SpecWork.v
theories/SpecBlocks.v
theories/PfBlkSha.v
theories/PfBlkHash.v
theories/PfBlk.v
theories/PfBlkSign.v
theories/PfBlkSession.v
theories/PfBlkTotals.v
theories/PfBlkVerify.v
theories/PfBlkCheck.v
theories/PropBlocks.v
theories/PfWorkSilent.v
theories/PfWork.v
theories/PfWorkSign.v
theories/PfWorkSession.v
theories/PfWorkVerify.v
theories/PfWorkCheck.v
theories/PfWorkTotals.v
theories/PropWork.v
theories/SpecBinding.v
theories/PfBind.v
theories/PropBinding.v
theories/SpecTest.v
theories/ModelTest.v
theories/PfTest.v
theories/PropTest.v
theories/ModelKat.v
theories/PfKat.v
theories/PropKat.v
theories/ModelMain.v
theories/PropMain.v
theories/CStack.v
theories/StkSha2.v
theories/StkFips202.v
theories/StkHash.v
theories/StkSphincs.v
theories/StkVerify.v
theories/StkApi.v
theories/PfStkErase.v
theories/PfStkErase2.v
theories/PfStkErase3.v
theories/PfStkErase4.v
theories/PfStack.v
theories/PfStackOps.v
theories/SpecStack.v
theories/PfStackApi.v
theories/PropStack.v
theories/SpecTurmoil.v
theories/PfTwoMem.v
theories/PfTurmoil.v
theories/PfTurmoilApi.v
theories/PropTurmoil.v
theories/PfTurmoilVer.v
theories/PfTurmoilVerApi.v
theories/PropTurmoilVerify.v
theories/SpecKeyParts.v
theories/PfKeyParts.v
theories/PfKeyPartsVer.v
theories/PfKeyPartsApi.v
theories/PropKeyParts.v
theories/ModelMeasure.v
theories/SpecMeasure.v
theories/PropMeasure.v
theories/SpecImport.v
theories/PfImport.v
theories/PropImport.v
