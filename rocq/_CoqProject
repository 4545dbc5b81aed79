-Q theories Verif
theories/Words.v
theories/State.v
theories/Opcodes.v
theories/SetModel.v
theories/LongModel.v
theories/Machine.v
theories/EncodeModel.v
theories/WordLemmas.v
theories/StateLemmas.v
theories/VmSpec.v
theories/VmProofs.v
theories/MemProofs.v
theories/CallProofs.v
theories/MultiProofs.v
theories/EncodeProofs.v
theories/PcProofs.v
theories/IndexProofs.v
theories/Samples.v
theories/EncodeSpec.v
theories/CodeLemmas.v
theories/VmRefuted.v
theories/PropsCode.v
theories/PropsVm.v
theories/LongSpec.v
theories/LongProofs.v
theories/PropsLong.v
theories/SetSpec.v
theories/SetProofs.v
theories/PropsSet.v
theories/PoptModel.v
theories/PoptLongModel.v
theories/OptSpec.v
theories/OptStack.v
theories/OptPure.v
theories/OptStep.v
theories/OptFine.v
theories/OptUnary.v
theories/OptTable.v
theories/OptExcept.v
theories/OptUnaryStep.v
theories/OptBinary.v
theories/OptBranch.v
theories/OptMem.v
theories/OptMemStep.v
theories/OptLong.v
theories/OptLongBin.v
theories/OptPassSpec.v
theories/OptRefute.v
theories/OptExamples.v
theories/PropsOpt.v
theories/FinalModel.v
theories/FinalSpec.v
theories/FinalProofs.v
theories/FinalMain.v
theories/PropsFinal.v
theories/LinkModel.v
theories/LinkSpec.v
theories/LinkSym.v
theories/LinkProofs.v
theories/LinkMain.v
theories/PropsLink.v
theories/PoffModel.v
theories/PoffSpec.v
theories/PoffLine.v
theories/PoffSwap.v
theories/PoffRound.v
theories/PoffMain.v
theories/PropsPoff.v
theories/HeapModel.v
theories/HeapSpec.v
theories/HeapProofs.v
theories/HeapInv.v
theories/HeapMain.v
theories/HeapRefuted.v
theories/PropsHeap.v
theories/HeapRegs.v
theories/StringModel.v
theories/StringSpec.v
theories/StringProofs.v
theories/StringOps.v
theories/StringOps2.v
theories/StringOps3.v
theories/StringOps4.v
theories/StringOps5.v
theories/StringCases.v
theories/PropsString.v
theories/SysioModel.v
theories/SysioSpec.v
theories/SysioProofs.v
theories/SysioStep.v
theories/SysioText.v
theories/SysioCases.v
theories/PropsSysio.v
theories/TokenModel.v
theories/TokenSpec.v
theories/TokenProofs.v
theories/TokenProofs2.v
theories/TokenProofs3.v
theories/TokenProofs4.v
theories/TokenCases.v
theories/PropsToken.v
theories/ExprModel.v
theories/ExprSpec.v
theories/ExprRun.v
theories/ExprOps.v
theories/ExprLoad.v
theories/ExprFun.v
theories/ExprProofs.v
theories/ExprMain.v
theories/ExprParse.v
theories/ExprAccept.v
theories/ExprTotal.v
theories/ExprCases.v
theories/PropsExpr.v
theories/FunCases.v
theories/PropsFunc.v
theories/StmtModel.v
theories/StmtSpec.v
theories/StmtPlain.v
theories/StmtRun.v
theories/StmtStore.v
theories/StmtStep.v
theories/StmtMain.v
theories/StmtLoops.v
theories/StmtFor.v
theories/StmtCase.v
theories/StmtSound.v
theories/StmtTotal.v
theories/StmtLabels.v
theories/StmtCases.v
theories/StmtAccept.v
theories/StmtAcceptCases.v
theories/PropsStmt.v
theories/ConstModel.v
theories/ConstSpec.v
theories/ConstBits.v
theories/ConstParts.v
theories/ConstMain.v
theories/ConstTotal.v
theories/ConstAccept.v
theories/ConstCases.v
theories/PropsConst.v
theories/DeclModel.v
theories/DeclFrame.v
theories/DeclTypes.v
theories/DeclSpec.v
theories/DeclVars.v
theories/DeclParms.v
theories/DeclRun.v
theories/DeclRead.v
theories/DeclShape.v
theories/DeclArray.v
theories/DeclRecord.v
theories/DeclDenoter.v
theories/DeclLayout.v
theories/DeclCases.v
theories/PropsDecl.v
theories/ArrModel.v
theories/ArrSpec.v
theories/ArrProofs.v
theories/ArrRun.v
theories/ArrMain.v
theories/ArrCases.v
theories/PropsArr.v
theories/RangeSpec.v
theories/RangeProofs.v
theories/RangeSound.v
theories/RangeComplete.v
theories/RangeCases.v
theories/PropsRange.v
theories/DeclEnds.v
theories/EndSpec.v
theories/EndBase.v
theories/EndCases.v
theories/PropsEnds.v
theories/ActModel.v
theories/ActSpec.v
theories/ActProofs.v
theories/ActRun.v
theories/ActAccept.v
theories/ActDecl.v
theories/ActCases.v
theories/PropsAct.v
theories/BlockModel.v
theories/BlockSpec.v
theories/BlockProofs.v
theories/BlockFrame.v
theories/BlockCall.v
theories/BlockMain.v
theories/BlockCases.v
theories/PropsBlock.v
theories/StartModel.v
theories/StartSpec.v
theories/StartProofs.v
theories/StartMain.v
theories/StartCases.v
theories/PropsStart.v
theories/RecModel.v
theories/RecSpec.v
theories/RecCode.v
theories/RecMain.v
theories/RecSound.v
theories/RecBlock.v
theories/RecCall.v
theories/RecFrames.v
theories/RecProgram.v
theories/RecText.v
theories/RecLabels.v
theories/RecCases.v
theories/PropsRec.v
theories/RealPc.v
theories/RealRun.v
theories/RealMain.v
theories/RealCases.v
theories/PropsReal.v
theories/RealText.v
theories/RealTextCases.v
theories/PropsText.v
theories/WriteModel.v
theories/WriteSpec.v
theories/WriteRun.v
theories/WriteProofs.v
theories/WriteMain.v
theories/WriteCases.v
theories/PropsWrite.v
theories/ReadModel.v
theories/ReadSpec.v
theories/ReadRun.v
theories/ReadMain.v
theories/ReadCases.v
theories/PropsRead.v
theories/StrOptModel.v
theories/StrOptSpec.v
theories/StrOptProofs.v
theories/StrOptCases.v
theories/PropsStrOpt.v
theories/DisModel.v
theories/DisSpec.v
theories/DisProofs.v
theories/DisLine.v
theories/DisMain.v
theories/DisSub.v
theories/DisCases.v
theories/PropsDis.v
theories/OptRunSpec.v
theories/OptRun.v
theories/OptPlain.v
theories/OptMeasure.v
theories/OptEnds.v
theories/OptTotal.v
theories/OptRunCases.v
theories/PropsOptRun.v
theories/FileModel.v
theories/FileSpec.v
theories/FileMain.v
theories/FileCases.v
theories/PropsFile.v
theories/EofModel.v
theories/EofSpec.v
theories/EofMain.v
theories/EofCases.v
theories/PropsEof.v
theories/PosModel.v
theories/PosSpec.v
theories/PosMain.v
theories/PosCases.v
theories/PropsPos.v
theories/HaltModel.v
theories/HaltSpec.v
theories/HaltMain.v
theories/HaltCases.v
theories/PropsHalt.v
theories/AddrModel.v
theories/AddrSpec.v
theories/AddrMain.v
theories/AddrCases.v
theories/PropsAddr.v
theories/SizeModel.v
theories/SizeSpec.v
theories/SizeMain.v
theories/SizeCases.v
theories/PropsSize.v
theories/DebugModel.v
theories/DebugSpec.v
theories/DebugMain.v
theories/DebugRun.v
theories/DebugCases.v
theories/PropsDebug.v
