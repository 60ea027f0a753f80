-Q theories Verif
theories/GoSem.v
theories/Errors.v
theories/Spec.v
theories/GoLemmas.v
theories/BitLemmas.v
theories/CodecLemmas.v
theories/V3Buffer.v
theories/V3Mini.v
theories/V3BufferTyped.v
theories/V3MiniTyped.v
theories/Typed.v
theories/V2Buffer.v
theories/V2Mini.v
theories/V2BufferTyped.v
theories/V2MiniTyped.v
theories/GoBinary.v
theories/V1Buffer.v
theories/V1Mini.v
theories/V3BitLemmas.v
theories/V3ByteLemmas.v
theories/TypedCanon.v
theories/TypedLemmas.v
theories/TypedReadLemmas.v
theories/Calls.v
theories/Abs.v
theories/Frame.v
theories/Sim.v
theories/History.v
theories/NewBuf.v
theories/Witness.v
theories/Props_Bits.v
theories/Props_Bytes.v
theories/Props_State.v
theories/Props_Stream.v
theories/MiniAbs.v
theories/MiniLemmas.v
theories/MiniSim.v
theories/MiniHistory.v
theories/Props_Mini.v
theories/LockLemmas.v
theories/OldCalls.v
theories/V2Lemmas.v
theories/V2Agree.v
theories/V2Safe.v
theories/V1Lemmas.v
theories/V1Calls.v
theories/Props_Old.v
theories/ErrLemmas.v
theories/Props_Err.v
theories/Examples.v
theories/Props_Examples.v
theories/Conc.v
theories/ConcLemmas.v
theories/ConcInv.v
theories/ConcSpec.v
theories/ConcV2.v
theories/ConcSched.v
theories/Props_Conc.v
theories/Race.v
theories/RaceSpec.v
theories/ConcSpec1.v
theories/ConcV1.v
theories/RaceLemmas.v
theories/RaceOld.v
theories/Props_Race.v
theories/Props_Float.v
theories/GoLex.v
theories/GoParse.v
theories/SrcV3.v
theories/SrcEx.v
theories/SrcGen.v
theories/ToolParse.v
theories/ToolRegex.v
theories/ToolEval.v
theories/ToolRegexLemmas.v
theories/ToolText.v
theories/ToolLemmas.v
theories/ToolSpec.v
theories/ToolMainLemmas.v
theories/AstV3.v
theories/Gen.v
theories/GenSpec.v
theories/GenLemmas.v
theories/Props_Gen.v
theories/SrcV1.v
theories/SrcV2.v
theories/AstV1.v
theories/AstV2.v
theories/GoEval.v
theories/GoMain.v
theories/Conv.v
theories/Front.v
theories/FrontV3.v
theories/FrontV3Typed.v
theories/FrontM3.v
theories/FrontM3Typed.v
theories/FrontV2.v
theories/FrontV2Typed.v
theories/FrontM2.v
theories/FrontM2Typed.v
theories/FrontV1.v
theories/FrontM1.v
theories/Tables.v
theories/TableProofs.v
theories/FrontCalls.v
theories/FrontMiniCalls.v
theories/Abs2.v
theories/Sim2.v
theories/Hist2.v
theories/MiniAbs2.v
theories/MiniSim2.v
theories/MiniHist2.v
theories/Enough.v
theories/FrontOldCalls.v
theories/FrontOldMini.v
theories/FrontConc.v
theories/Props_Front.v
theories/Props_ExText.v
theories/Props_FrontConc.v
theories/Props_Abs2.v
theories/Props_FrontRace.v
theories/Props_ConcV1.v
theories/Props_FrontConcV1.v
theories/RaceSpec3.v
theories/Race3.v
theories/Props_Race3.v
theories/AloneSpec.v
theories/Alone.v
theories/Props_Alone.v
theories/Props_Mini2.v
theories/Props_GenText.v
theories/Props_Tool.v
theories/AllocSpec.v
theories/AllocLemmas.v
theories/Props_Alloc.v
theories/Many.v
theories/Props_Many.v
theories/Wire.v
theories/Props_Wire.v
theories/RaceMiniSpec.v
theories/RaceMini.v
theories/Props_RaceMini.v
theories/ExactSpec.v
theories/RaceLog.v
theories/RaceExact.v
theories/RaceExact2.v
theories/Props_RaceExact.v
theories/IsolateSpec.v
theories/IsolateRel.v
theories/Isolate.v
theories/Props_Isolate.v
theories/IsolateText.v
theories/Props_IsolateText.v
theories/SrcTest.v
theories/GoTest.v
theories/Validate.v
theories/WorkSpec.v
theories/Work.v
theories/WorkV3.v
theories/WorkOld.v
theories/WorkGrow.v
theories/Props_Work.v
theories/RaceMiniSpec2.v
theories/RaceMini2.v
theories/Props_RaceMini2.v
theories/AloneMiniSpec.v
theories/WeakSpec.v
theories/AloneGen.v
theories/AloneMini.v
theories/Props_AloneMini.v
theories/ExactSpec2.v
theories/RaceExact3.v
theories/Props_RaceExactMini.v
theories/Weak.v
theories/Props_Weak.v
theories/Bound.v
theories/TextWeak.v
theories/Props_WeakText.v
theories/TextConc.v
theories/Props_Bound.v
theories/IsolateBound.v
theories/Props_IsolateBound.v
theories/NewWork.v
theories/Props_NewWork.v
