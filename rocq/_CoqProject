-Q theories Verif
theories/Base.v
theories/Storage.v
theories/Bin.v
theories/Utf8.v
theories/Tags.v
theories/TagSets.v
theories/Variants.v
theories/Items.v
theories/Index.v
theories/BaseFacts.v
theories/Intern.v
theories/Spec.v
theories/Hist.v
theories/SpecFacts.v
theories/TrieFacts.v
theories/NoteFacts.v
theories/OptFacts.v
theories/BinFacts.v
theories/PropsIds.v
theories/CodecFacts.v
theories/ReloadFacts.v
theories/HistFacts.v
theories/DictFacts.v
theories/QueryFacts.v
theories/Utf8Facts.v
theories/Streams.v
theories/ThmStreams.v
theories/DocSpec.v
theories/Parser.v
theories/Calls.v
theories/ParserFacts.v
theories/Alias.v
theories/ThmAlias.v
theories/ThmParser.v
theories/ThmTrie.v
theories/ThmStore.v
theories/ThmTables.v
theories/ThmUtf8.v
theories/ThmTags.v
theories/ThmDisk.v
theories/ThmDoc.v
theories/Loader.v
theories/LoaderSpec.v
theories/ThmLoader.v
theories/Cli.v
theories/Strconv.v
theories/Session.v
theories/Numerals.v
theories/Screen.v
theories/ScreenSpec.v
theories/Browse.v
theories/ThmCli.v
theories/NumFacts.v
theories/ThmSession.v
theories/ThmEnd.v
theories/Conc.v
theories/Limits.v
theories/ThmTotal.v
theories/ThmConc.v
theories/PropsConc.v
theories/PropsTrie.v
theories/PropsUtf8.v
theories/PropsStore.v
theories/PropsTags.v
theories/PropsDisk.v
theories/Foreign.v
theories/ThmForeign.v
theories/PropsForeign.v
theories/PropsStreams.v
theories/PropsParser.v
theories/PropsLoader.v
theories/PropsCli.v
theories/PropsTotal.v
theories/PropsSession.v
theories/RepoTests.v
theories/Flags.v
theories/FlagSpec.v
theories/ThmFlags.v
theories/PropsFlags.v
theories/Paths.v
theories/PathSpec.v
theories/ThmPaths.v
theories/PropsPaths.v
theories/ConcTags.v
theories/ThmConcTags.v
theories/ThmConcAlone.v
theories/PropsConcTags.v
theories/Share.v
theories/FileSpec.v
theories/ThmFile.v
theories/Lend.v
theories/ThmShare.v
theories/ThmLend.v
theories/PropsShare.v
theories/PropsLend.v
theories/ThmScreen.v
theories/PropsScreen.v
theories/Render.v
theories/RenderSpec.v
theories/ThmRender.v
theories/PropsRender.v
theories/Corpus.v
theories/ThmCorpus.v
theories/PropsCorpus.v
theories/PropsFile.v
theories/Memory.v
theories/ThmMemory.v
theories/PropsMemory.v
theories/DateSpec.v
theories/Dates.v
theories/ThmDates.v
theories/PropsDates.v
theories/ServerSpec.v
theories/ThmServer.v
theories/PropsServer.v
theories/AnswerSpec.v
theories/ThmAnswers.v
theories/PropsAnswers.v
theories/StageSpec.v
theories/ThmStages.v
theories/PropsStages.v
theories/ThmMore.v
theories/PropsMore.v
theories/Report.v
theories/ThmReport.v
theories/PropsReport.v
theories/Overlap.v
theories/ThmOverlap.v
theories/PropsOverlap.v
theories/Fill.v
theories/ThmFill.v
theories/Tidy.v
theories/ThmTidy.v
theories/PropsTidy.v
theories/Sorting.v
theories/ThmSorting.v
theories/PropsSorting.v
theories/Xml.v
theories/XmlSpec.v
theories/ThmXml.v
theories/ThmXmlFile.v
theories/PropsXml.v
theories/XmlLang.v
theories/ThmXmlLang.v
theories/ThmXmlLangFile.v
theories/PropsXmlLang.v
theories/Float.v
theories/Floats.v
theories/ThmFloat.v
theories/PropsFloat.v
theories/Errors.v
theories/ErrorSpec.v
theories/ThmErrors.v
theories/PropsErrors.v
theories/ThmRest.v
theories/PropsRest.v
theories/Minor.v
theories/MinorSpec.v
theories/ThmMinor.v
theories/PropsMinor.v
theories/Footprint.v
theories/ThmFootprint.v
theories/PropsFootprint.v
theories/PropsFill.v
theories/Unlink.v
theories/ThmUnlink.v
theories/PropsUnlink.v
theories/Together.v
theories/TogetherSpec.v
theories/ThmTogether.v
theories/PropsTogether.v
theories/Fold.v
theories/FoldSpec.v
theories/ThmFold.v
theories/PropsFold.v
theories/FormatSpec.v
theories/ThmFormat.v
theories/PropsFormat.v
theories/Messages.v
theories/MessageSpec.v
theories/ThmMessages.v
theories/PropsMessages.v
theories/Complaints.v
theories/ComplaintSpec.v
theories/ThmComplaints.v
theories/PropsComplaints.v
