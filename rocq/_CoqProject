-Q theories Verif
theories/Bytes.v
theories/Winnow.v
theories/RecordModel.v
theories/RecordSpec.v
theories/BaseProofs.v
theories/RecordProofs.v
theories/Utf8Model.v
theories/TagOccModel.v
theories/ByteRecordModel.v
theories/ReaderModel.v
theories/Utf8Spec.v
theories/Utf8Proofs.v
theories/TagOccSpec.v
theories/TagOccProofs.v
theories/ByteRecordSpec.v
theories/ByteRecordProofs.v
theories/ReaderProofs.v
theories/PropertiesRecord.v
theories/PropertiesTagOcc.v
theories/StrParserModel.v
theories/MatcherModel.v
theories/StateParser.v
theories/MatcherParserModel.v
theories/MatcherSpec.v
theories/MatcherProofs.v
theories/StrSpec.v
theories/StrProofs.v
theories/StateParserProofs.v
theories/MatcherParserProofs.v
theories/BuilderModel.v
theories/BuilderSpec.v
theories/BuilderProofs.v
theories/MatcherExtraProofs.v
theories/PropertiesMatcher.v
theories/PathModel.v
theories/FmtModel.v
theories/QueryModel.v
theories/QuerySpec.v
theories/QueryProofs.v
theories/QueryParserProofs.v
theories/QueryUtf8Proofs.v
theories/QueryExtraProofs.v
theories/PropertiesQuery.v
theories/CliModel.v
theories/CliSpec.v
theories/CliProofs.v
theories/CliCommandProofs.v
theories/CliOutputProofs.v
theories/CliRangeProofs.v
theories/CliChunkProofs.v
theories/CliListProofs.v
theories/CliCounterexamples.v
theories/SampleSpec.v
theories/SampleProofs.v
theories/PropertiesCli.v
theories/TableModel.v
theories/TableSpec.v
theories/TableProofs.v
theories/FrequencyProofs.v
theories/DescribeProofs.v
theories/PropertiesTable.v
theories/ConvertModel.v
theories/ConvertSpec.v
theories/ConvertProofs.v
theories/ConvertRunProofs.v
theories/ConvertCounterexamples.v
theories/PropertiesConvert.v
theories/ExplodeModel.v
theories/ExplodeSpec.v
theories/ExplodeProofs.v
theories/ExplodeRunProofs.v
theories/PropertiesExplode.v
theories/CheckCodes.v
theories/CheckModel.v
theories/CheckSpec.v
theories/CheckProofs.v
theories/CheckVerdictProofs.v
theories/CheckRunProofs.v
theories/CheckCounterexamples.v
theories/PropertiesCheck.v
theories/OptionsModel.v
theories/OptionsSpec.v
theories/OptionsProofs.v
theories/PropertiesOptions.v
theories/ConfigModel.v
theories/ConfigSpec.v
theories/ConfigProofs.v
theories/PropertiesConfig.v
theories/GrammarSpec.v
theories/GrammarExprProofs.v
theories/GrammarLeafProofs.v
theories/GrammarSingletonProofs.v
theories/GrammarCondProofs.v
theories/GrammarSubProofs.v
theories/GrammarFieldLeafProofs.v
theories/GrammarFieldProofs.v
theories/GrammarSoundProofs.v
theories/DisplaySpec.v
theories/DisplayProofs.v
theories/DisplayMatcherProofs.v
theories/GrammarStateProofs.v
theories/GrammarRecoverProofs.v
theories/GrammarClaimProofs.v
theories/PropertiesGrammar.v
theories/LookupProofs.v
theories/PropertiesLookup.v
theories/QueryGrammarSpec.v
theories/PathGrammarProofs.v
theories/FmtGrammarProofs.v
theories/FmtReadProofs.v
theories/QueryGrammarProofs.v
theories/QueryTextProofs.v
theories/QueryTextExamples.v
theories/PropertiesQueryGrammar.v
theories/PrepareModel.v
theories/PrepareSpec.v
theories/PrepareProofs.v
theories/TablePrepareProofs.v
theories/PropertiesPrepare.v
theories/CsvModel.v
theories/CsvSpec.v
theories/CsvProofs.v
theories/PropertiesCsv.v
theories/SingleModel.v
theories/SingleSpec.v
theories/SingleProofs.v
theories/DisplaySubProofs.v
theories/SingleFieldProofs.v
theories/PropertiesSingle.v
theories/CodesSpec.v
theories/CodesProofs.v
theories/PropertiesCodes.v
theories/OwnedModel.v
theories/OwnedProofs.v
theories/PropertiesOwned.v
theories/IoModel.v
theories/IoSpec.v
theories/IoProofs.v
theories/PropertiesIo.v
theories/WriteModel.v
theories/WriteSpec.v
theories/WriteProofs.v
theories/WriteCommandProofs.v
theories/PropertiesWrite.v
theories/DiskModel.v
theories/DiskSpec.v
theories/DiskProofs.v
theories/DiskCommandProofs.v
theories/DiskAppendProofs.v
theories/DiskEndProofs.v
theories/PropertiesDisk.v
theories/DirModel.v
theories/DirSpec.v
theories/EndSpec.v
theories/DirLoopProofs.v
theories/DirSplitProofs.v
theories/DirPartProofs.v
theories/DiskFullProofs.v
theories/DiskTableProofs.v
theories/EndProofs.v
theories/EndTableProofs.v
theories/DirCommandProofs.v
theories/DirRoundProofs.v
theories/DirFailProofs.v
theories/PropertiesDir.v
theories/PropertiesEnd.v
theories/HaltSpec.v
theories/HaltProofs.v
theories/PropertiesHalt.v
theories/RuleModel.v
theories/RuleSpec.v
theories/RuleProofs.v
theories/RuleEndProofs.v
theories/PropertiesRule.v
theories/CostSpec.v
theories/CostProofs.v
theories/CostLowProofs.v
theories/CostHighProofs.v
theories/CostDepthProofs.v
theories/PropertiesCost.v
theories/ConfBase.v
theories/ConfData.v
theories/ConfPrimitives.v
theories/ConfSubfieldParser.v
theories/ConfMatcher.v
theories/ConfQuery.v
theories/ConfDump.v
theories/CompatModel.v
theories/CompatSpec.v
theories/CompatProofs.v
theories/CompatDollarProofs.v
theories/CompatClaimProofs.v
theories/PropertiesCompat.v
theories/ConfCompat.v
theories/MainModel.v
theories/MainSpec.v
theories/MainProofs.v
theories/MainTwiceProofs.v
theories/MainUseProofs.v
theories/MainDependProofs.v
theories/MainEndProofs.v
theories/MainSpellProofs.v
theories/PropertiesMain.v
theories/RunSpec.v
theories/RunProofs.v
theories/PropertiesRun.v
theories/SessionSpec.v
theories/SessionProofs.v
theories/PropertiesSession.v
theories/PipeSpec.v
theories/PipeProofs.v
theories/PipeInProofs.v
theories/PropertiesPipe.v
theories/FrontLoop.v
theories/FrontSpec.v
theories/FrontProofs.v
theories/FrontRunProofs.v
theories/FrontExplodeProofs.v
theories/MergeSpec.v
theories/MergeProofs.v
theories/PropertiesFront.v
theories/PropertiesMerge.v
theories/ProgressModel.v
theories/ProgressSpec.v
theories/ProgressProofs.v
theories/PropertiesProgress.v
theories/LimitSpec.v
theories/LimitProofs.v
theories/PropertiesLimit.v
theories/LimitFrontSpec.v
theories/LimitFrontProofs.v
theories/PropertiesLimitFront.v
theories/PartsSpec.v
theories/PartsProofs.v
theories/PropertiesParts.v
theories/TwiceSpec.v
theories/TwiceProofs.v
theories/PropertiesTwice.v
theories/RecordwiseSpec.v
theories/RecordwiseProofs.v
theories/PropertiesRecordwise.v
theories/DealtSpec.v
theories/DealtProofs.v
theories/PropertiesDealt.v
theories/CaseSpec.v
theories/CaseProofs.v
theories/CaseRunProofs.v
theories/PropertiesCase.v
theories/AgreedSpec.v
theories/AgreedProofs.v
theories/PropertiesAgreed.v
theories/TallySpec.v
theories/TallyProofs.v
theories/PropertiesTally.v
theories/ShownSpec.v
theories/ShownProofs.v
theories/PropertiesShown.v
theories/ReorderSpec.v
theories/ReorderProofs.v
theories/PropertiesReorder.v
theories/EachProofs.v
theories/PropertiesEach.v
theories/ReadableSpec.v
theories/ReadableProofs.v
theories/PropertiesReadable.v
theories/TitledProofs.v
theories/PropertiesTitled.v
theories/FewerSpec.v
theories/FewerProofs.v
theories/PropertiesFewer.v
theories/TopmostProofs.v
theories/PropertiesTopmost.v
theories/ReversedProofs.v
theories/PropertiesReversed.v
theories/StyledProofs.v
theories/PropertiesStyled.v
theories/DigestProofs.v
theories/PropertiesDigest.v
theories/SpelledProofs.v
theories/PropertiesSpelled.v
theories/OnceProofs.v
theories/PropertiesOnce.v
theories/ModesProofs.v
theories/PropertiesModes.v
theories/SerdeModel.v
theories/SerdeSpec.v
theories/SerdeProofs.v
theories/PropertiesSerde.v
theories/AskableSpec.v
theories/AskableProofs.v
theories/PropertiesAskable.v
theories/ManyWriteModel.v
theories/ManyWriteSpec.v
theories/ManyWriteProofs.v
theories/PropertiesManyWrite.v
theories/ClapModel.v
theories/ArgsModel.v
theories/ArgsSpec.v
theories/ClapProofs.v
theories/ClapValues.v
theories/ArgsProofs.v
theories/ArgsCommands.v
theories/ArgsLine.v
theories/ArgsEffects.v
theories/PropertiesArgs.v
theories/ConfCli.v
theories/ConfCliCheck.v
theories/ConfCliCompletions.v
theories/ConfCliConcat.v
theories/ConfCliConfig.v
theories/ConfCliConvert.v
theories/ConfCliCount.v
theories/ConfCliDescribe.v
theories/ConfCliExplode.v
theories/ConfCliFilter.v
theories/ConfCliFrequency.v
theories/ConfCliHash.v
theories/ConfCliInvalid.v
theories/ConfCliPartition.v
theories/ConfCliPrint.v
theories/ConfCliSample.v
theories/ConfCliSelect.v
theories/ConfCliSlice.v
theories/ConfCliSplit.v
