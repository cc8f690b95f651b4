-Q theories Verif

theories/Base.v
theories/Trie.v
theories/Utf8.v
theories/TableGraphemes.v
theories/TableWords.v
theories/TableSentences.v
theories/TablePhrases.v
theories/Ansi.v
theories/Graphemes.v
theories/Words.v
theories/Sentences.v
theories/Phrases.v
theories/SpecUtf8.v
theories/SpecIter.v
theories/SpecApi.v
theories/ListFacts.v
theories/LookupFacts.v
theories/TableFacts.v
theories/Engine.v
theories/EngineMore.v
theories/Lk.v
theories/Seek.v
theories/AnsiFacts.v
theories/GraphemesEngine.v
theories/WordsEngine.v
theories/SentencesEngine.v
theories/PhrasesEngine.v
theories/Drive.v
theories/GraphemesIter.v
theories/WordsIter.v
theories/SentencesIter.v
theories/PhrasesIter.v
theories/ApiFacts.v
theories/ApiInst.v
theories/PropIter.v
theories/SpecUcd.v
theories/RangeTrees.v
theories/UcdFacts.v
theories/SpecLookup.v
theories/UcdGraphemes.v
theories/UcdWords.v
theories/UcdSentences.v
theories/UcdPhrases.v
theories/PropLookup.v
theories/SpecRules.v
theories/SpecGraphemes.v
theories/RuleFacts.v
theories/BitFacts.v
theories/Conform.v
theories/DecodeFacts.v
theories/GraphemesConform.v
theories/SpecWords.v
theories/SpecSentences.v
theories/WordFacts.v
theories/SeekText.v
theories/WordsConform.v
theories/PhrasesConform.v
theories/SentenceFacts.v
theories/SentencesConform.v
theories/ConformApi.v
theories/SegFacts.v
theories/TestsGraphemes.v
theories/TestsWords.v
theories/TestsSentences.v
theories/TestsRun.v
theories/PropConform.v
theories/SpecNest.v
theories/NestFacts.v
theories/Lines.v
theories/GraphemesLines.v
theories/WordsLines.v
theories/SentencesLines.v
theories/PhrasesLines.v
theories/SpecText.v
theories/TextFacts.v
theories/PropText.v
theories/Scanner.v
theories/SpecReader.v
theories/ScannerFacts.v
theories/ReaderFacts.v
theories/WordsReader.v
theories/PropReader.v
theories/SpecJoiners.v
theories/JoinersFacts.v
theories/PropJoiners.v
theories/SpecJoined.v
theories/JoinedFacts.v
theories/JoinersConform.v
theories/JoinersSim.v
theories/JoinersBounds.v
theories/PropJoined.v
theories/SpecAnsi.v
theories/AnsiRec.v
theories/AnsiCuts.v
theories/PropAnsi.v
theories/Trunc.v
theories/WordsCut.v
theories/PhrasesCut.v
theories/SentencesCut.v
theories/CutApi.v
theories/PropCut.v
theories/LookupOnly.v
theories/SpecBleve.v
theories/BleveFacts.v
theories/PropBleve.v
theories/Filter.v
theories/SpecRunes.v
theories/FilterFacts.v
theories/PropFilter.v
theories/Iterators.v
theories/SpecIterators.v
theories/IteratorsFacts.v
theories/PropIterators.v
theories/Triegen.v
theories/SpecTriegen.v
theories/SpecTrieHash.v
theories/TriegenFacts.v
theories/TriegenIns.v
theories/TriegenBuild.v
theories/TriegenSize.v
theories/TriegenTables.v
theories/TriegenLookup.v
theories/TriegenExt.v
theories/Crc64.v
theories/TriegenRun.v
theories/TriegenDag.v
theories/TriegenCheck.v
theories/GenMain.v
theories/SpecGenerate.v
theories/GenFacts.v
theories/TrieGraphemes.v
theories/TrieWords.v
theories/TrieSentences.v
theories/TriePhrases.v
theories/SpecData.v
theories/DataFacts.v
theories/PropTriegen.v
theories/PropTables.v
theories/GenParse.v
theories/SpecDataFile.v
theories/GenParseFacts.v
theories/SpecFiles.v
theories/MainFacts.v
theories/FilesExist.v
theories/PropFiles.v
theories/Pieces.v
theories/PiecesWords.v
theories/PiecesPhrases.v
theories/PiecesSentences.v
theories/PiecesApi.v
theories/PropPieces.v
theories/Cost.v
theories/CountGraphemes.v
theories/CountWords.v
theories/CountPhrases.v
theories/CountSentences.v
theories/CostScan.v
theories/CostGraphemes.v
theories/CostWords.v
theories/CostPhrases.v
theories/CostSentences.v
theories/CostApi.v
theories/PropCost.v
theories/Append.v
theories/AppendWords.v
theories/AppendPhrases.v
theories/AppendSentences.v
theories/AppendApi.v
theories/PropAppend.v
theories/SpecGoSource.v
theories/Print.v
theories/PrintFacts.v
theories/PrintTokens.v
theories/PrintRead.v
theories/PrintGen.v
theories/PrintWritten.v
theories/PrintCheck.v
theories/PrintSame.v
theories/SourceGraphemes.v
theories/SourceWords.v
theories/SourceSentences.v
theories/SourcePhrases.v
theories/PrintGraphemes.v
theories/PrintWords.v
theories/PrintSentences.v
theories/PrintPhrases.v
theories/PrintCommitted.v
theories/PropPrint.v
theories/SpecScanner.v
theories/ScannerProtocol.v
theories/PropScanner.v
theories/CodeText.v
theories/GoSyntax.v
theories/GoSem.v
theories/GoFacts.v
theories/ProgGraphemes.v
theories/CodeGBase.v
theories/CodeGSplit.v
theories/CodeGAnsi.v
theories/CodeGIter.v
theories/SpecCode.v
theories/CodeApi.v
theories/CodeGraphemes.v
theories/ProgSentences.v
theories/CodeSBase.v
theories/CodeSSplit.v
theories/CodeSIter.v
theories/CodeSentences.v
theories/ProgPhrases.v
theories/CodePBase.v
theories/CodePSplit.v
theories/CodePIter.v
theories/CodePhrases.v
theories/ProgWords.v
theories/CodeWBase.v
theories/CodeWSplit.v
theories/CodeWFunc.v
theories/CodeWIter.v
theories/CodeWords.v
theories/SpecCode2.v
theories/ProgOther.v
theories/CodeOther.v
theories/CodeWordsAny.v
theories/PropCode.v
theories/SpecCodeText.v
theories/CodeTokens.v
theories/PropCodeText.v
theories/SpecCodeReader.v
theories/CodeReader.v
theories/CodeReaders.v
theories/PropCodeReader.v
theories/GenTests.v
theories/SpecTestFile.v
theories/GenTestsFacts.v
theories/GenTestsWrite.v
theories/PropGenTests.v
theories/SpecShare.v
theories/ShareFacts.v
theories/ShareApi.v
theories/ShareG.v
theories/ShareS.v
theories/ShareP.v
theories/ShareW.v
theories/ShareI.v
theories/ShareAll.v
theories/PropShare.v
theories/Alias.v
theories/SpecAlias.v
theories/AliasFacts.v
theories/AliasScan.v
theories/AliasInst.v
theories/PropAlias.v
theories/Prompt.v
theories/PromptWords.v
theories/PromptSentences.v
theories/SpecLong.v
theories/LongFacts.v
theories/PropLong.v
theories/SpecBuffer.v
theories/BufferFacts.v
theories/PropBuffer.v
theories/SpecCluster.v
theories/ClusterFacts.v
theories/ClusterCut.v
theories/ClusterAscii.v
theories/PropCluster.v
theories/SpecPlain.v
theories/PlainFacts.v
theories/PlainWords.v
theories/PlainPhrases.v
theories/PlainSentences.v
theories/PlainApi.v
theories/PropPlain.v
theories/SpecIll.v
theories/IllFacts.v
theories/IllSim.v
theories/IllSeek.v
theories/IllRules.v
theories/IllSentences.v
theories/PropIll.v
theories/SpecSame.v
theories/SameFacts.v
theories/SameRules.v
theories/SameApi.v
theories/PropSame.v
theories/SpecHangul.v
theories/HangulFacts.v
theories/HangulProps.v
theories/HangulRules.v
theories/PropHangul.v
theories/UcdNear.v
theories/SpecMarks.v
theories/MarkFacts.v
theories/MarkRules.v
theories/PropMarks.v
theories/SpecSteps.v
theories/StepsRun.v
theories/StepsRel.v
theories/StepsSim.v
theories/SpecStepsShare.v
theories/StepsShare.v
theories/PropSteps.v
theories/SpecAlloc.v
theories/AllocFacts.v
theories/AllocG.v
theories/AllocS.v
theories/AllocP.v
theories/AllocI.v
theories/AllocW.v
theories/AllocAll.v
theories/PropAlloc.v
theories/SpecDecomp.v
theories/SpecCanon.v
theories/CanonSeg.v
theories/CanonRules.v
theories/CanonTables.v
theories/PropCanon.v
theories/SpecNorm.v
theories/NormFacts.v
theories/PropNorm.v
theories/SpecCaseTables.v
theories/SpecCase.v
theories/CaseFacts.v
theories/PropCase.v
theories/SpecUcd15.v
theories/SpecSince.v
theories/SinceFacts.v
theories/PropSince.v
theories/CountScanner.v
theories/SpecWork.v
theories/WorkFacts.v
theories/WorkGraphemes.v
theories/WorkWords.v
theories/WorkPhrases.v
theories/WorkSentences.v
theories/WorkIter.v
theories/PropWork.v
theories/SpecNfc.v
theories/NfcFacts.v
theories/PropNfc.v
theories/SpecEndings.v
theories/EndingFacts.v
theories/EndingSeg.v
theories/EndingRules.v
theories/PropEndings.v
theories/SpecInvis.v
theories/InvisRules.v
theories/PropInvis.v
theories/SourcePrint.v
theories/Template.v
theories/TemplateFacts.v
theories/TemplateTotal.v
theories/PropTemplate.v
theories/SpecTrieShare.v
theories/TriegenMany.v
theories/TriegenShare.v
theories/TriegenAgain.v
theories/TriegenFit.v
theories/TriegenSmall.v
theories/PropTrieShare.v
theories/TriegenCompact.v
theories/SpecTrieCompact.v
theories/TriegenCompactFacts.v
theories/TriegenCompactLookup.v
theories/TriegenCompactSmall.v
theories/PropTrieCompact.v
theories/SpecEmoji.v
theories/EmojiFacts.v
theories/EmojiGraphemes.v
theories/EmojiWords.v
theories/PropEmoji.v
theories/SpecGreedy.v
theories/GreedyFacts.v
theories/PropGreedy.v
theories/SpecSpace.v
theories/SpaceFacts.v
theories/PropSpace.v
theories/SpecStyled.v
theories/StyledFacts.v
theories/PropStyled.v
theories/SpecShape.v
theories/ShapeFacts.v
theories/PropShape.v
theories/SpecPhraseShape.v
theories/PhraseShapeFacts.v
theories/PropPhraseShape.v
theories/SpecStop.v
theories/StopFacts.v
theories/PropStop.v
theories/SpecLocal.v
theories/LocalFacts.v
theories/PropLocal.v
theories/PropResume.v
theories/SpecExact.v
theories/ExactFacts.v
theories/PropExact.v
theories/JoinedLocal.v
theories/PropJoinedLocal.v
