-Q theories Verif

theories/GoStr.v
theories/GoPath.v
theories/Types.v
theories/Lex.v
theories/Lua.v
theories/Analyze.v
theories/Parse.v
theories/Combine.v
theories/Main.v
theories/Build.v
theories/TablesLatest.v
theories/TablesPlus1.v
theories/TablesPlus2.v
theories/TablesOther.v
theories/Tables.v
theories/Fixtures.v
theories/Util.v
theories/Utf8.v
theories/SpecOpts.v
theories/SpecPath.v
theories/SpecRun.v
theories/SpecTree.v
theories/TreeFacts.v
theories/SpecValidate.v
theories/ValidateProofs.v
theories/SpecIf.v
theories/IfProofs.v
theories/SpecTables.v
theories/TableProofs.v
theories/PropertiesValidate.v
theories/ParseFacts.v
theories/ParseInv.v
theories/Effects.v
theories/SpecPayload.v
theories/StatusProofs.v
theories/StopProofs.v
theories/SpecInclude.v
theories/IncludeProofs.v
theories/EdgeProofs.v
theories/SpecGraph.v
theories/KahnProofs.v
theories/SpecCombine.v
theories/CombineProofs.v
theories/SpecOutcome.v
theories/OutcomeProofs.v
theories/SpecClean.v
theories/CleanProofs.v
theories/HeapFacts.v
theories/SpecForest.v
theories/ForestFacts.v
theories/ForestEval.v
theories/SpecContext.v
theories/CtxProofs.v
theories/IgnoreProofs.v
theories/SpecMap.v
theories/SpecCrash.v
theories/MapProofs.v
theories/IgnoreEval.v
theories/SpecReject.v
theories/RejectProofs.v
theories/ForestTools.v
theories/LexFacts.v
theories/LexMachine.v
theories/SpecLex.v
theories/LexProofs.v
theories/SpecLayout.v
theories/LayoutProofs.v
theories/SpecEnquote.v
theories/EnquoteForm.v
theories/EnquoteProofs.v
theories/SpecExt.v
theories/ExtProofs.v
theories/ArgProofs.v
theories/SpecLua.v
theories/LuaProofs.v
theories/RegProofs.v
theories/SpecBuild.v
theories/BuildFacts.v
theories/BuildIO.v
theories/SpecFiles.v
theories/FilesProofs.v
theories/Gen.v
theories/GenFixtures.v
theories/SpecGen.v
theories/GenProofs.v
theories/GenSource.v
theories/GenText.v
theories/Json.v
theories/SpecJson.v
theories/JsonProofs.v
theories/JsonDirs.v
theories/Chan.v
theories/SpecChan.v
theories/ChanProofs.v
theories/ChanCombine.v
theories/SpecOwn.v
theories/TidyProofs.v
theories/ChanParse.v
theories/SpecRound.v
theories/RoundArg.v
theories/RoundLayout.v
theories/RoundTokens.v
theories/RoundTop.v
theories/RoundEval.v
theories/RoundProofs.v
theories/SpecLost.v
theories/LostProofs.v
theories/SpecStray.v
theories/StrayProofs.v
theories/StrayTables.v
theories/PropertiesLex.v
theories/PropertiesParse.v
theories/PropertiesForest.v
theories/PropertiesBuild.v
theories/PropertiesExt.v
theories/PropertiesFiles.v
theories/PropertiesGen.v
theories/PropertiesJson.v
theories/PropertiesChan.v
theories/PropertiesRound.v
theories/PropertiesLost.v
theories/SpecWords.v
theories/WordsProofs.v
theories/SpecLuaTable.v
theories/LuaTable.v
theories/SpecCut.v
theories/CutProofs.v
theories/PropertiesWords.v
theories/PropertiesCut.v
theories/SpecComplain.v
theories/ComplainProofs.v
theories/PathProofs.v
theories/PathTables.v
theories/PropertiesComplain.v
theories/SpecLocate.v
theories/LocateProofs.v
theories/PropertiesLocate.v
theories/SpecRead.v
theories/ReadProofs.v
theories/PropertiesRead.v
theories/SpecScan.v
theories/ScanProofs.v
theories/PropertiesScan.v
theories/SpecTotal.v
theories/TotalProofs.v
theories/PropertiesTotal.v
theories/SpecQuote.v
theories/QuoteProofs.v
theories/SpecText.v
theories/TextProofs.v
theories/PropertiesQuote.v
theories/SpecHand.v
theories/HandProofs.v
theories/PropertiesHand.v
theories/SpecLuaLex.v
theories/LuaLexProofs.v
theories/PropertiesLuaLex.v
theories/SpecChars.v
theories/CharsProofs.v
theories/PropertiesChars.v
theories/SpecLib.v
theories/LibProofs.v
theories/PropertiesLib.v
theories/SpecRegex.v
theories/RegexProofs.v
theories/PropertiesRegex.v
theories/SpecJsonText.v
theories/JsonTextProofs.v
theories/PropertiesJsonText.v
theories/GenMain.v
theories/SpecCmd.v
theories/CmdProofs.v
theories/PropertiesCmd.v
theories/SpecFormat.v
theories/FormatProofs.v
theories/PropertiesFormat.v
theories/SpecFlatten.v
theories/FlattenProofs.v
theories/PropertiesFlatten.v
theories/SpecInline.v
theories/InlineProofs.v
theories/PropertiesInline.v
theories/SpecJoin.v
theories/JoinProofs.v
theories/PropertiesJoin.v
theories/SpecLuaRound.v
theories/LuaLayout.v
theories/LuaTree.v
theories/LuaRoundProofs.v
theories/PropertiesLuaRound.v
theories/LuaFlatten.v
theories/SpecLuaFormat.v
theories/LuaFormat.v
theories/PropertiesLuaFiles.v
theories/Reader.v
theories/SpecReader.v
theories/ReaderProofs.v
theories/PropertiesReader.v
theories/SpecLoose.v
theories/LooseProofs.v
theories/PropertiesLoose.v
theories/SpecElsewhere.v
theories/ElsewhereProofs.v
theories/PropertiesElsewhere.v
theories/SpecCallback.v
theories/CallbackProofs.v
theories/PropertiesCallback.v
theories/SpecWritten.v
theories/WrittenProofs.v
theories/PropertiesWritten.v
theories/SpecRelease.v
theories/ReleaseProofs.v
theories/PropertiesRelease.v
theories/Pointer.v
theories/SpecPointer.v
theories/PointerProofs.v
theories/PropertiesPointer.v
theories/SpecReceived.v
theories/ReceivedProofs.v
theories/PropertiesReceived.v
theories/SpecReflow.v
theories/ReflowProofs.v
theories/PropertiesReflow.v
theories/SpecTrip.v
theories/TripProofs.v
theories/PropertiesTrip.v
theories/SpecMove.v
theories/MoveProofs.v
theories/PropertiesMove.v
theories/Handles.v
theories/SpecHandles.v
theories/HandlesProofs.v
theories/PropertiesHandles.v
theories/Creators.v
theories/SpecCreators.v
theories/CreatorsProofs.v
theories/PropertiesCreators.v
theories/SpecAgain.v
theories/AgainProofs.v
theories/PropertiesAgain.v
theories/SpecNumber.v
theories/NumberProofs.v
theories/PropertiesNumber.v
theories/SpecOrder.v
theories/OrderProofs.v
theories/PropertiesOrder.v
theories/SpecIndent.v
theories/IndentProofs.v
theories/PropertiesIndent.v
theories/SpecAsked.v
theories/AskedProofs.v
theories/PropertiesAsked.v
theories/SpecTrigger.v
theories/TriggerProofs.v
theories/PropertiesTrigger.v
