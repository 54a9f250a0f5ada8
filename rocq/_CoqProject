-Q theories Verif
theories/Base.v
theories/TableFrom.v
theories/TableTo.v
theories/TableHanja.v
theories/Utf8.v
theories/SortSearch.v
theories/HangulModel.v
theories/HanjaModel.v
theories/Cp949Model.v
theories/StreamModel.v
theories/TransformModel.v
theories/SpecIO.v
theories/Spec.v
theories/SpecCp949.v
theories/Facts.v
theories/PMapFacts.v
theories/SearchFacts.v
theories/SliceFacts.v
theories/Utf8Facts.v
theories/HangulFacts.v
theories/HangulFacts2.v
theories/HangulFacts3.v
theories/PropHangul.v
theories/HanjaFacts.v
theories/PropHanja.v
theories/TableFacts.v
theories/Cp949Facts.v
theories/Cp949Facts2.v
theories/PropCp949.v
theories/StreamFacts.v
theories/StreamFacts2.v
theories/StreamFacts3.v
theories/PropStream.v
theories/TransformFacts.v
theories/TransformFacts2.v
theories/TransformFacts3.v
theories/PropTransform.v
theories/TableRef.v
theories/SpecTable.v
theories/TableFacts2.v
theories/PropTables.v
theories/HangulFacts4.v
theories/HangulFacts5.v
theories/StreamFacts4.v
theories/PropMore.v
theories/SpecText.v
theories/Cp949Facts3.v
theories/PropText.v
theories/TransformModel2.v
theories/TransformFacts4.v
theories/SpecString.v
theories/StringFacts.v
theories/PropString.v
theories/Validation.v
theories/IoModel.v
theories/PipeFacts.v
theories/StreamModel2.v
theories/StreamModel3.v
theories/PipeFacts2.v
theories/StreamFacts5.v
theories/PropPipe.v
theories/SpecText2.v
theories/ClientModel.v
theories/TextFacts2.v
theories/EmptyFacts.v
theories/ClientFacts.v
theories/PropClient.v
theories/GoLang.v
theories/GoSource.v
theories/GoFacts.v
theories/GoHeap.v
theories/GoHangul.v
theories/GoHanja.v
theories/GoCp949.v
theories/GoStream.v
theories/GoPlatform.v
theories/GoCp949W.v
theories/GoStreamW.v
theories/GoHangulW.v
theories/SourceSpec.v
theories/SourceFacts.v
theories/SourceFacts2.v
theories/SourceFactsW.v
theories/PropPlatform.v
theories/PropSource.v
theories/ProgSpec.v
theories/ProgFacts.v
theories/PropProgram.v
theories/SpecWrong.v
theories/WrongFacts.v
theories/PropWrong.v
theories/GoThreads.v
theories/ThreadFacts.v
theories/OwnFacts.v
theories/SpecThreads.v
theories/PoolFacts.v
theories/GoroutineFacts.v
theories/ThreadCases.v
theories/ThreadWrong.v
theories/PropThreads.v
theories/BufioModel.v
theories/SpecLines.v
theories/BufioFacts.v
theories/BufioFacts2.v
theories/BufioFacts3.v
theories/PropBufio.v
theories/ConstModel.v
theories/SpecNames.v
theories/ConstFacts.v
theories/PropConst.v
theories/GoLexer.v
theories/GoParser.v
theories/GoElab.v
theories/TextTable.v
theories/TextLookupFrom.v
theories/TextLookupTo.v
theories/SourceText.v
theories/GoTextFacts.v
theories/PropGoText.v
theories/MemorySpec.v
theories/MemoryFacts.v
theories/PropMemory.v
theories/TransformModel3.v
theories/SpecTrans.v
theories/TransformFacts5.v
theories/TransformFacts6.v
theories/PropTrans.v
theories/SpecReads.v
theories/ReadsFacts.v
theories/PropReads.v
theories/SpecWork.v
theories/WorkFacts.v
theories/PropWork.v
theories/SpecShared.v
theories/SharedFacts.v
theories/PropShared.v
theories/GoTime.v
theories/TimeFacts.v
theories/TimeCp949.v
theories/TimeSpec.v
theories/TimeStream.v
theories/TimeReader.v
theories/TimeReader2.v
theories/TimeLower.v
theories/TimeLower2.v
theories/TimeHangul.v
theories/TimeHanja.v
theories/PropTime.v
theories/ShareModel.v
theories/SpecShare.v
theories/ShareFacts.v
theories/PropShare.v
theories/ComposeModel.v
theories/SpecCompose.v
theories/ComposeFacts.v
theories/PropCompose.v
theories/SpecJamo.v
theories/JamoFacts.v
theories/PropParticle.v
theories/BufReaderModel.v
theories/SpecPieces.v
theories/BufReaderFacts.v
theories/PropBufReader.v
theories/SpecLock.v
theories/LockFacts.v
theories/LockStream.v
theories/PropLock.v
theories/SpecCells.v
theories/CellFacts.v
theories/CellPool.v
theories/CellGoroutines.v
theories/CellCases.v
theories/PropCells.v
theories/SpecChain.v
theories/ChainModel.v
theories/ChainFacts.v
theories/PropChain.v
theories/SpecAgents.v
theories/AgentFacts.v
theories/PropAgents.v
theories/SpecLetters.v
theories/LettersSweep.v
theories/LettersFacts.v
theories/PropLetters.v
theories/SpecCrew.v
theories/CrewFacts.v
theories/CrewWriters.v
theories/PropCrew.v
theories/KeepModel.v
theories/KeepFacts.v
theories/PropKeep.v
theories/WordModel.v
theories/SpecWords.v
theories/WordScan.v
theories/WordFacts.v
theories/PropWords.v
theories/SpecCrewRead.v
theories/CrewReaders.v
theories/CrewWrong.v
theories/CrewStream.v
theories/PropCrewRead.v
theories/DamageFacts.v
theories/PropDamage.v
theories/RepairFacts.v
theories/PropRepair.v
theories/SpecTrim.v
theories/TrimFacts.v
theories/PropTrim.v
theories/SpecGuess.v
theories/GuessFacts.v
theories/PropGuess.v
theories/TableNfc.v
theories/SpecNfc.v
theories/NfcFacts.v
theories/TableReadings.v
theories/NfcFacts2.v
theories/PropNfc.v
theories/SpecField.v
theories/FieldFacts.v
theories/PropField.v
theories/FscanModel.v
theories/FscanFacts.v
theories/PropFscan.v
theories/SpecReplace.v
theories/ReplaceFacts.v
theories/PropReplace.v
theories/SpecEnds.v
theories/EndsFacts.v
theories/PropEnds.v
theories/LookupFacts.v
theories/PropLookup.v
theories/WidthFacts.v
theories/PropWidth.v
theories/SpecParse.v
theories/ParseFacts.v
theories/PropParse.v
theories/SpecAppend.v
theories/AppendModel.v
theories/AppendFacts.v
theories/PropAppend.v
theories/LetterOrderFacts.v
theories/PropLetterOrder.v
theories/IotestModel.v
theories/IotestFacts.v
theories/PropIotest.v
theories/SpecSuffix.v
theories/SuffixFacts.v
theories/PropSuffix.v
theories/SpecInPlace.v
theories/InPlaceFacts.v
theories/PropInPlace.v
theories/BomFacts.v
theories/PropBom.v
theories/SpecEscape.v
theories/EscapeFacts.v
theories/PropEscape.v
theories/EucKrFacts.v
theories/PropEucKr.v
theories/WordReplaceFacts.v
theories/PropWordReplace.v
theories/KindsFacts.v
theories/PropKinds.v
theories/SpecFilter.v
theories/FilterFacts.v
theories/PropFilter.v
theories/FindFacts.v
theories/PropFind.v
theories/SniffFacts.v
theories/PropSniff.v
theories/RawWordFacts.v
theories/PropRawWord.v
theories/TwiceFacts.v
theories/PropTwice.v
theories/RedecodeFacts.v
theories/PropRedecode.v
theories/ReadOrderFacts.v
theories/ReadFirstFacts.v
theories/PropReadOrder.v
