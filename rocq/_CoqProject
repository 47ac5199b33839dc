-Q theories Verif
theories/GoStd.v
theories/Json.v
theories/Core.v
theories/Skip.v
theories/Focus.v
theories/Spec.v
theories/SpecProofs.v
theories/Domains.v
theories/CoreProofs.v
theories/SpecLocal.v
theories/Local.v
theories/CoreNeg.v
theories/CoreSib.v
theories/Errors.v
theories/Api.v
theories/Parse.v
theories/Rfc.v
theories/RfcProofs.v
theories/Typed.v
theories/Iter.v
theories/SpecIter.v
theories/SpecList.v
theories/ApiProofs.v
theories/Updates.v
theories/InsertExact.v
theories/Ops.v
theories/Below.v
theories/History.v
theories/TypedProofs.v
theories/IterProofs.v
theories/IterObj.v
theories/IterMisc.v
theories/Split.v
theories/ListExact.v
theories/LocalApi.v
theories/Format.v
theories/SpecFormat.v
theories/FormatProofs.v
theories/RfcUpdates.v
theories/Heap.v
theories/SpecScheme.v
theories/Scheme.v
theories/SchemeProofs.v
theories/Make.v
theories/MakeProofs.v
theories/Parser.v
theories/SpecParser.v
theories/SpecParserOps.v
theories/SpecTyped.v
theories/ParserProofs.v
theories/ParserGet.v
theories/ParserUpd.v
theories/ParserOps.v
theories/ParserInsert.v
theories/Walk.v
theories/SpecWalk.v
theories/WalkProofs.v
theories/WalkTotal.v
theories/SpecAlias.v
theories/Alias.v
theories/AliasProofs.v
theories/JO.v
theories/SpecJO.v
theories/JOProofs.v
theories/SpecPanic.v
theories/NoPanic.v
theories/NoPanicB.v
theories/NoPanicC.v
theories/NoPanicD.v
theories/NoPanicE.v
theories/Neat.v
theories/Laws.v
theories/SpecSplice.v
theories/Splice.v
theories/Layout.v
theories/SpecPtr.v
theories/SpecTree.v
theories/Tree.v
theories/TreeProofs.v
theories/ParserNew.v
theories/Pointers.v
theories/PointerProofs.v
theories/SpecNumber.v
theories/GoFloat.v
theories/FloatProofs.v
theories/FloatApi.v
theories/TypeExact.v
theories/GoMem.v
theories/Mem.v
theories/SpecMem.v
theories/MemProofs.v
theories/MemSession.v
theories/LayoutRead.v
theories/SpecLayout.v
theories/LayoutAbsent.v
theories/LayoutWalk.v
theories/SpecFlat.v
theories/Flat.v
theories/SpecMade.v
theories/Made.v
theories/MadeParser.v
theories/SpecDeep.v
theories/Deep.v
theories/DeepWalk.v
theories/DeepParser.v
theories/SpecPiece.v
theories/Piece.v
theories/SpecAgree.v
theories/Agree.v
theories/ParserTyped.v
theories/P_Lookup.v
theories/P_Update.v
theories/P_Errors.v
theories/P_Iter.v
theories/P_Types.v
theories/P_Format.v
theories/P_Typed.v
theories/P_Rfc.v
theories/P_Make.v
theories/P_Parser.v
theories/P_Walk.v
theories/P_Alias.v
theories/P_JO.v
theories/BlankText.v
theories/P_Panic.v
theories/P_Laws.v
theories/P_Piece.v
theories/P_Flat.v
theories/P_Made.v
theories/P_MadeParser.v
theories/P_Deep.v
theories/P_Splice.v
theories/P_Pointers.v
theories/P_Tree.v
theories/P_Float.v
theories/P_Local.v
theories/P_Mem.v
theories/P_Agree.v
theories/P_ParserTyped.v
theories/ParserMem.v
theories/SpecParserMem.v
theories/ParserMemProofs.v
theories/P_ParserMem.v
theories/SpecRefuse.v
theories/ParserRefuse.v
theories/P_Refuse.v
theories/SpecFails.v
theories/LookupFails.v
theories/P_Fails.v
theories/ParserText.v
theories/P_ParserText.v
theories/JOMem.v
theories/JOMemProofs.v
theories/P_JOMem.v
theories/IterMem.v
theories/SpecIterMem.v
theories/IterMemProofs.v
theories/IterEdit.v
theories/IterPanic.v
theories/P_IterMem.v
theories/SpecScan.v
theories/ParseAny.v
theories/P_ParseAny.v
theories/SpecNest.v
theories/ParserNest.v
theories/ParserNil.v
theories/P_ParserNest.v
theories/GoLang.v
theories/CoreGo.v
theories/CoreGoProofs.v
theories/P_CoreGo.v
theories/IterGo.v
theories/IterGoProofs.v
theories/P_IterGo.v
theories/PCoreGo.v
theories/PCoreGoProofs.v
theories/P_PCoreGo.v
theories/ListGo.v
theories/ListGoProofs.v
theories/P_ListGo.v
theories/SplitGo.v
theories/SplitGoProofs.v
theories/P_SplitGo.v
theories/FormatGo.v
theories/FormatGoProofs.v
theories/P_FormatGo.v
theories/UpdateGo.v
theories/UpdateGoProofs.v
theories/P_UpdateGo.v
theories/MakeGo.v
theories/MakeGoProofs.v
theories/P_MakeGo.v
theories/WalkGo.v
theories/WalkGoProofs.v
theories/P_WalkGo.v
theories/ParserGo.v
theories/ParserGoProofs.v
theories/Octets.v
theories/ParserGoWritten.v
theories/ParserNilGo.v
theories/TypedGo.v
theories/TypedGoProofs.v
theories/ParserTypedGo.v
theories/ParserTypedGoProofs.v
theories/P_ParserGo.v
theories/AsWritten.v
theories/AsWrittenProofs.v
theories/P_AsWritten.v
theories/P_TypedGo.v
theories/SpecQuiet.v
theories/QuietProofs.v
theories/SpecQuietGo.v
theories/QuietGoProofs.v
theories/P_Quiet.v
theories/SpecUtf8.v
theories/SpecUtf8Calls.v
theories/Utf8Proofs.v
theories/Utf8More.v
theories/Utf8Calls.v
theories/Utf8Parser.v
theories/Utf8Walk.v
theories/P_Utf8.v
theories/DeepTotal.v
theories/SpecDeepGo.v
theories/DeepGo.v
theories/P_DeepGo.v
theories/SpecDeepJO.v
theories/DeepJO.v
theories/P_DeepJO.v
theories/SpecDeepParser.v
theories/DeepParserOps.v
theories/P_DeepParserOps.v
