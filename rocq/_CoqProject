-Q theories Verif
theories/Base.v
theories/BaseProofs.v
theories/Hash.v
theories/HashProofs.v
theories/Dict.v
theories/DictProofs.v
theories/Stack.v
theories/StackProofs.v
theories/Str.v
theories/StrProofs.v
theories/Eol.v
theories/EolProofs.v
theories/CNum.v
theories/Args.v
theories/ArgsProofs.v
theories/IfDef.v
theories/IfDefProofs.v
theories/File.v
theories/FileProofs.v
theories/MemTrack.v
theories/MemTrackProofs.v
theories/Err.v
theories/ErrProofs.v
theories/Opcodes.v
theories/Cpu.v
theories/OpcodesProofs.v
theories/DictMore.v
theories/FrontMore.v
theories/OpcodesMore.v
theories/Build.v
theories/CpuStep.v
theories/ExprMore.v
theories/ExprProofs.v
theories/ExprShape.v
theories/FarTwice.v
theories/FlowEx.v
theories/Gen.v
theories/GenFront.v
theories/GenX.v
theories/IncProofs.v
theories/InstrMore.v
theories/InstrProofs.v
theories/Inv.v
theories/LexProofs.v
theories/Lexer.v
theories/LoopProofs.v
theories/Machine.v
theories/OpMore.v
theories/ListRel.v
theories/RecProofs.v
theories/OpProofs.v
theories/OutProofs.v
theories/ParseProofs.v
theories/Parser.v
theories/Pass.v
theories/PassProofs.v
theories/List.v
theories/Prog.v
theories/Sem.v
theories/SourceEx.v
theories/State.v
theories/Sym.v
theories/SymEx.v
theories/PmDef.v
theories/LocalAdd.v
theories/SymMore.v
theories/SymProofs.v
theories/UnitTests.v
theories/DataProofs.v
theories/DataMore.v
theories/Colon.v
theories/DefProofs.v
theories/BadProofs.v
theories/DataWalk.v
theories/OpWalk.v
theories/Layout.v
theories/LineProofs.v
theories/LineTwo.v
theories/LineThree.v
theories/LineFour.v
theories/LineFive.v
theories/FillProofs.v
theories/Prop_Data.v
theories/Prop_Expr.v
theories/Prop_Flow.v
theories/Prop_Front.v
theories/Prop_Instr.v
theories/Prop_Opcodes.v
theories/Prop_Pass.v
theories/Prop_Source.v
theories/Prop_Sym.v
theories/Prop_Util.v
theories/Merge.v
theories/MergeProofs.v
theories/Prop_Merge.v
theories/RegLoop.v
theories/RegRun.v
theories/RegEx.v
theories/Prop_Reg.v
theories/Frag.v
theories/FragPass.v
theories/FragProg.v
theories/FragAsm.v
theories/FragSeg.v
theories/FragEx.v
theories/Prop_Prog.v
theories/ListProofs.v
theories/ListFile.v
theories/ListLines.v
theories/ListOnce.v
theories/ListAsm.v
theories/ListBeside.v
theories/ListAddr.v
theories/ListSeg.v
theories/Prop_List.v
theories/Prop_Seg.v
theories/UtilExact.v
theories/RegDown.v
theories/ZpiProofs.v
theories/StrNode.v
theories/Prop_Exact.v
theories/TextLines.v
theories/MacroProofs.v
theories/MacroMore.v
theories/MacroLabel.v
theories/Prop_Macro.v
theories/IfdefPass.v
theories/NamesStay.v
theories/Prop_Cond.v
theories/DirProofs.v
theories/VarProofs.v
theories/Prop_Dir.v
theories/SrcText.v
theories/SrcProg.v
theories/LexText.v
theories/ParseText.v
theories/TextEx.v
theories/Prop_Text.v
theories/IfProofs.v
theories/Struct.v
theories/StructRep.v
theories/StructOp.v
theories/StructRun.v
theories/StructExec.v
theories/StructBuild.v
theories/StructLine.v
theories/StructVar.v
theories/StructLabel.v
theories/StructProg.v
theories/StructEx.v
theories/Prop_Struct.v
