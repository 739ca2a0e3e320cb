-Q theories Verif
theories/Spec.v
theories/GoSem.v
theories/Tables.v
theories/GenTables.v
theories/Shared.v
theories/Asm.v
theories/AsmProgs.v
theories/Encode.v
theories/Decode.v
theories/Writer.v
theories/Reader.v
theories/Wp.v
theories/SpecLemmas.v
theories/EncodeProof.v
theories/TableProof.v
theories/EncodeProof2.v
theories/SimdProof.v
theories/AsmProof.v
theories/DecodeProof.v
theories/DecodeProof2.v
theories/WriterProof.v
theories/WriterProof2.v
theories/ReaderProof.v
theories/ReaderProof2.v
theories/ReaderProof3.v
theories/ReaderProof4.v
theories/ReaderProof5.v
theories/ReaderProof6.v
theories/Api.v
theories/ApiLemmas.v
theories/Witness.v
theories/C_Writer.v
theories/C_Reader.v
theories/ReaderProof7.v
theories/C_ReaderFast.v
theories/C_Exact.v
theories/C_RoundTrip.v
theories/C_Prims.v
theories/C_Group8.v
theories/C_Cpu.v
theories/C_Simd.v
theories/C_Compose.v
theories/Util.v
theories/UtilSpec.v
theories/UtilProof.v
theories/C_Util.v
theories/Conc.v
theories/C_Conc.v
theories/Build.v
theories/C_Build.v
theories/AvoGen.v
theories/AvoSem.v
theories/AvoProof.v
theories/C_Avo.v
theories/C_Stream.v
theories/C_Exact8.v
theories/Cost.v
theories/C_Work.v
theories/Outcome.v
theories/Outcome2.v
theories/Outcome3.v
theories/C_Panic.v
theories/AsmCheck.v
theories/BenchTool.v
theories/C_Bench.v
theories/SourceText.v
theories/GoSyntax.v
theories/AsmText.v
theories/IntOps.v
theories/IntSize.v
theories/GoInterp.v
theories/GoProgram.v
theories/GoSource.v
theories/C_Source.v
theories/GoRefine.v
theories/Total.v
theories/SourceBase.v
theories/SourceEncode.v
theories/SourceDecode.v
theories/SourceWriter.v
theories/SourceReader.v
theories/SourceUtil.v
theories/C_Text.v
theories/GoTypes.v
theories/C_Types.v
theories/IntAlike.v
theories/IntSame.v
theories/C_Int.v
theories/GenInterp.v
theories/GenMono.v
theories/GenPrint.v
theories/GenRegs.v
theories/C_Gen.v
theories/Lockstep.v
theories/LockEncode.v
theories/LockWriter.v
theories/LockReader.v
theories/C_Trace.v
theories/TestText.v
theories/TestInterp.v
theories/TestRules.v
theories/TestFiles.v
theories/TestCalls.v
theories/C_Tests.v
theories/BenchText.v
theories/BenchInterp.v
theories/C_BenchText.v
theories/C_Benchmarks.v
theories/C_Readme.v
theories/C_Damage.v
theories/C_Canon.v
theories/ShellText.v
theories/ShellInterp.v
theories/C_Scripts.v
theories/C_Edit.v
theories/GoGrammar.v
theories/GoLexical.v
theories/C_Grammar.v
theories/C_Lexical.v
theories/C_GoFiles.v
theories/Flat.v
theories/FlatVec.v
theories/FlatProof.v
theories/FlatSim.v
theories/C_Flat.v
theories/FlatExact.v
theories/C_FlatExact.v
theories/GoOrder.v
theories/OrderProof.v
theories/OrderExpr.v
theories/OrderStmt.v
theories/C_Order.v
theories/C_Printed.v
theories/C_Count.v
theories/C_Misread.v
theories/Assumptions.v
