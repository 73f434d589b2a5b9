-Q theories Verif
theories/PyBase.v
theories/PyFacts.v
theories/Jabmod.v
theories/PairwiseModel.v
theories/Spec.v
theories/PairwiseFacts.v
theories/PropsPairwise.v
theories/ScoreModel.v
theories/ScoreFacts.v
theories/PropsScore.v
theories/PropsCopeMore.v
theories/PropsScoreMore.v
theories/IrvModel.v
theories/IrvFacts.v
theories/IrvStrict.v
theories/IrvTrace.v
theories/IrvCriteria.v
theories/PropsIrv.v
theories/IrvMonotone.v
theories/PropsIrvMore.v
theories/WordTable.v
theories/Regex.v
theories/ParserModel.v
theories/RegexFacts.v
theories/ParserSpec.v
theories/ParserFacts.v
theories/ParserPrefs.v
theories/ParserRender.v
theories/ParserFile.v
theories/ParserText.v
theories/ParserLines.v
theories/PropsParser.v
theories/UrlText.v
theories/JsonText.v
theories/WriterModel.v
theories/NameqModel.v
theories/TextFacts.v
theories/UrlFacts.v
theories/NameqFacts.v
theories/PropsNameq.v
theories/JsonFacts.v
theories/ConsolidateFacts.v
theories/CsvFacts.v
theories/PropsConvert.v
theories/RoundtripFacts.v
theories/RoundtripFile.v
theories/RoundtripParsed.v
theories/PropsRoundtrip.v
theories/PreflibModel.v
theories/DebtallyModel.v
theories/ImportSpec.v
theories/ImportFacts.v
theories/PreflibFacts.v
theories/DebtallyFacts.v
theories/PropsImport.v
theories/PropsImportMore.v
theories/SftxtModel.v
theories/SftxtSpec.v
theories/SftxtFacts.v
theories/PropsSftxt.v
theories/SftxtFile.v
theories/PropsSftxtFile.v
theories/UtilModel.v
theories/PropsUtil.v
theories/DiagramModel.v
theories/PropsDiagram.v
theories/FetchModel.v
theories/PropsFetch.v
theories/JsonParse.v
theories/JsonParseFacts.v
theories/JabmodJson.v
theories/PropsJson.v
theories/ConvertModel.v
theories/PropsWidj.v
theories/PropsConvertText.v
theories/ResultsJson.v
theories/HtmlModel.v
theories/CliModel.v
theories/PropsCli.v
theories/PosixModel.v
theories/ExtfileModel.v
theories/PosixFacts.v
theories/PropsExtfile.v
theories/PropsExtfileMore.v
theories/LogModel.v
theories/PropsLog.v
theories/SpecfileModel.v
theories/SpecfileFacts.v
theories/PropsSpecfile.v
theories/PropsReport.v
theories/PropsResults.v
theories/PropsHtml.v
theories/PropsCliMore.v
theories/PropsChars.v
theories/ScriptsModel.v
theories/PropsScripts.v
theories/PropsFiles.v
theories/PropsIrvSym.v
theories/IrvEqual.v
theories/PropsIrvEqual.v
theories/RoundtripExact.v
theories/PropsStable.v
theories/PropsPipe.v
theories/IrvCounts.v
theories/PropsCounts.v
theories/PropsEnding.v
theories/PropsFormats.v
theories/PropsEndingMore.v
theories/PropsJabmodOut.v
theories/StackModel.v
theories/PropsStack.v
theories/PropsNameless.v
theories/ArgvModel.v
theories/PropsArgv.v
theories/PropsWithdraw.v
theories/PropsClones.v
theories/PropsAlternatives.v
theories/LimitsModel.v
theories/PropsLimits.v
theories/ObjModel.v
theories/ObjFacts.v
theories/ObjReadable.v
theories/PropsObj.v
theories/SftxtMainModel.v
theories/PropsSftxtMain.v
theories/RepoTests.v
theories/FloatModel.v
theories/FloatFacts.v
theories/PropsFloats.v
theories/ArgparseModel.v
theories/ArgparseFacts.v
theories/ScriptArgvModel.v
theories/PropsScriptArgv.v
theories/ConcurModel.v
theories/PropsConcur.v
theories/CrashModel.v
theories/PropsCrash.v
theories/PropsArgvFlags.v
theories/PropsScriptSpelled.v
theories/PropsEdges.v
theories/PropsRepeat.v
theories/PropsCrashFresh.v
