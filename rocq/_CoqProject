-Q theories Verif
theories/Base.v
theories/BaseFacts.v
theories/Types.v
theories/TypeHeapModel.v
theories/LayoutSpec.v
theories/TypeHeapSpec.v
theories/TypeHeapProofs.v
theories/TypeHeapProofs2.v
theories/TypeHeapProofs3.v
theories/TypeHeapProofs4.v
theories/TypeHeapExamples.v
theories/PropsTypesLemmas.v
theories/PropsTypes.v
theories/NaturalTypes.v
theories/NaturalFacts.v
theories/Unix64Model.v
theories/Unix64Spec.v
theories/Unix64Classify.v
theories/Unix64Call.v
theories/Unix64Fill.v
theories/Unix64Link.v
theories/Unix64Closure.v
theories/Unix64Ret.v
theories/Unix64Main.v
theories/Unix64Ret2.v
theories/PropsUnix64Lemmas.v
theories/PropsUnix64.v
theories/Win64Model.v
theories/Win64Spec.v
theories/Win64Link.v
theories/Win64Facts.v
theories/Win64Main.v
theories/PropsWin64Lemmas.v
theories/PropsWin64.v
theories/PrepX86Model.v
theories/PrepX86Spec.v
theories/PrepX86Proofs.v
theories/PrepX86Main.v
theories/PropsPrepX86.v
theories/RawModel.v
theories/RawSpec.v
theories/RawProofs.v
theories/RawJava.v
theories/RawMain.v
theories/PropsRaw.v
theories/TrampCodeModel.v
theories/TrampCodeSpec.v
theories/TrampCodeProofs.v
theories/ClosurePrepModel.v
theories/ClosurePrepSpec.v
theories/ClosurePrepProofs.v
theories/ClosurePrepMain.v
theories/PropsTramp.v
theories/TrampModel.v
theories/TrampSpec.v
theories/TrampDll.v
theories/TrampProofs.v
theories/TrampInv.v
theories/TrampOps.v
theories/TrampAlloc.v
theories/TrampInit.v
theories/TrampSys.v
theories/TrampMain.v
theories/TrampRun.v
theories/PropsTrampAlloc.v
theories/TempFileModel.v
theories/TempFileSpec.v
theories/TempFileProofs.v
theories/TempFileMain.v
theories/PropsTempFile.v
theories/SegModel.v
theories/SegSpec.v
theories/SegProofs.v
theories/SegMain.v
theories/SegRaceModel.v
theories/SegRaceSpec.v
theories/SegRaceProofs.v
theories/PropsSeg.v
theories/ClosureAllocModel.v
theories/ClosureAllocSpec.v
theories/ClosureAllocProofs.v
theories/ClosureAllocMain.v
theories/PropsClosureAlloc.v
theories/MachModel.v
theories/MachSpec.v
theories/MachProofs.v
theories/MachMain.v
theories/PropsMach.v
theories/A64Model.v
theories/A64Spec.v
theories/A64Hfa.v
theories/A64Facts.v
theories/A64Call.v
theories/A64Main.v
theories/A64Closure.v
theories/A64Ret.v
theories/A64Fits.v
theories/A64Lemmas.v
theories/PropsA64.v
theories/RvModel.v
theories/RvSpec.v
theories/RvFlat.v
theories/RvCall.v
theories/RvMain.v
theories/RvWhole.v
theories/RvClosure.v
theories/RvRet.v
theories/RvLemmas.v
theories/PropsRv.v
theories/LaModel.v
theories/LaSpec.v
theories/LaFlat.v
theories/LaCall.v
theories/LaMain.v
theories/LaWhole.v
theories/LaClosure.v
theories/LaRet.v
theories/LaLemmas.v
theories/PropsLa.v
theories/RiscAsmModel.v
theories/RiscAsmFacts.v
theories/RiscAsmCall.v
theories/RiscAsmLeave.v
theories/RiscAsmClo.v
theories/RiscAsmTop.v
theories/RiscAsmEnd.v
theories/RvAsm.v
theories/RvAsmSamples.v
theories/PropsRvAsm.v
theories/LaAsm.v
theories/LaAsmSamples.v
theories/PropsLaAsm.v
theories/X87Model.v
theories/X87Facts.v
theories/I386Model.v
theories/I386Spec.v
theories/I386RetSpec.v
theories/I386RawSpec.v
theories/I386Facts.v
theories/I386Call.v
theories/I386CallOk.v
theories/I386Closure.v
theories/I386Ret.v
theories/I386Raw.v
theories/I386Lemmas.v
theories/PropsI386.v
theories/ByteMem.v
theories/X64AsmModel.v
theories/X64AsmFacts.v
theories/X64AsmCall.v
theories/X64AsmRet.v
theories/X64AsmBlock.v
theories/X64AsmSpec.v
theories/X64AsmWhole.v
theories/X64AsmEnter.v
theories/X64AsmLeave.v
theories/X64AsmClo.v
theories/X64AsmExit.v
theories/X64AsmClosure.v
theories/X64AsmTop.v
theories/X64AsmSamples.v
theories/PropsX64Asm.v
theories/A64AsmModel.v
theories/A64ClosureModel.v
theories/A64AsmFacts.v
theories/A64AsmCall.v
theories/A64AsmRet.v
theories/A64AsmCallAll.v
theories/A64AsmClo.v
theories/A64AsmExit.v
theories/A64AsmCloAll.v
theories/A64AsmTramp.v
theories/A64AsmEnd.v
theories/A64AsmTop.v
theories/A64AsmSamples.v
theories/PropsA64Asm.v
theories/I386AsmModel.v
theories/I386AsmFacts.v
theories/I386AsmCall.v
theories/I386AsmClo.v
theories/I386AsmTramp.v
theories/I386AsmRet.v
theories/I386AsmRaw.v
theories/I386AsmEnter.v
theories/I386AsmBack.v
theories/I386AsmTop.v
theories/I386AsmExit.v
theories/I386AsmRawTop.v
theories/I386AsmWhole.v
theories/I386AsmSamples.v
theories/PropsI386Asm.v
theories/ArmModel.v
theories/ArmSpec.v
theories/ArmHfa.v
theories/ArmFp.v
theories/ArmPlan.v
theories/ArmCall.v
theories/ArmPrep.v
theories/ArmCallMem.v
theories/ArmClosure.v
theories/ArmAsmModel.v
theories/ArmAsmFacts.v
theories/ArmAsm.v
theories/ArmJoin.v
theories/ArmMain.v
theories/ArmCloMain.v
theories/ArmTramp.v
theories/ArmWhole.v
theories/ArmTrip.v
theories/ArmSamples.v
theories/PropsArm.v
theories/W64AsmModel.v
theories/W64AsmFacts.v
theories/W64AsmSpec.v
theories/W64AsmRun.v
theories/W64AsmClo.v
theories/W64AsmTop.v
theories/W64AsmEnd.v
theories/W64AsmSamples.v
theories/PropsW64Asm.v
theories/S390Model.v
theories/S390AsmModel.v
theories/S390Spec.v
theories/S390Facts.v
theories/S390Arg.v
theories/S390Call.v
theories/S390AsmRun.v
theories/S390Clo.v
theories/S390Top.v
theories/S390Back.v
theories/S390Samples.v
theories/PropsS390.v
theories/Or1kModel.v
theories/Or1kAsmModel.v
theories/Or1kSpec.v
theories/Or1kFacts.v
theories/Or1kCall.v
theories/Or1kAsmRun.v
theories/Or1kClo.v
theories/Or1kTop.v
theories/Or1kSamples.v
theories/PropsOr1k.v
theories/BfinModel.v
theories/BfinSpec.v
theories/BfinFacts.v
theories/BfinAsm.v
theories/BfinTop.v
theories/BfinSamples.v
theories/PropsBfin.v
