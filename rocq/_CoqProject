-Q theories Verif
theories/Base.v
theories/BaseFacts.v
theories/Utf8Model.v
theories/Utf8Spec.v
theories/Utf8Proofs.v
theories/Utf8Validate.v
theories/Utf8Lemmas.v
theories/Utf8Props.v
theories/StringModel.v
theories/StringSpec.v
theories/StringProofs.v
theories/ColumnFileModel.v
theories/ColumnFileSpec.v
theories/ColumnFileProofs.v
theories/ColumnFileLemmas.v
theories/StringProps.v
theories/ColumnFileProps.v
theories/IdsModel.v
theories/IdsSpec.v
theories/IdsProofs.v
theories/IdsProps.v
theories/SymbolModel.v
theories/SymbolProofs.v
theories/SymbolProps.v
theories/EnumModel.v
theories/EnumSpec.v
theories/EnumProofs.v
theories/EnumProps.v
theories/BlockModel.v
theories/BlockSpec.v
theories/BlockProofs.v
theories/BlockProps.v
theories/KanaModel.v
theories/Utf8CharSpec.v
theories/KanaSpec.v
theories/KanaProofs.v
theories/KanaProps.v
theories/Utf8CharModel.v
theories/Utf8CharProofs.v
theories/Utf8CharLemmas.v
theories/Utf8CharProps.v
theories/ConverterModel.v
theories/ConverterSpec.v
theories/ConverterProofs.v
theories/ConverterKana.v
theories/ConverterRomaji.v
theories/ConverterTables.v
theories/ConverterTrip.v
theories/ConverterBack.v
theories/ConverterMore.v
theories/ConverterCase.v
theories/ConverterWhole.v
theories/ConverterProps.v
theories/MapModel.v
theories/CountModel.v
theories/CountSpec.v
theories/MapProofs.v
theories/CountFile.v
theories/CountProofs.v
theories/CountProps.v
theories/StatsModel.v
theories/StatsSpec.v
theories/StatsProofs.v
theories/StatsProps.v
theories/ListModel.v
theories/ListSpec.v
theories/ListProofs.v
theories/ListProps.v
theories/ArgsModel.v
theories/ArgsSpec.v
theories/ArgsProofs.v
theories/ArgsProps.v
theories/KanjiModel.v
theories/KanjiSpec.v
theories/KanjiProofs.v
theories/KanjiProps.v
theories/DataModel.v
theories/DataSpec.v
theories/DataProofs.v
theories/DataFreq.v
theories/DataLemmas.v
theories/DataProps.v
theories/UcdModel.v
theories/UcdSpec.v
theories/UcdProofs.v
theories/UcdProps.v
theories/DisplayModel.v
theories/DisplaySpec.v
theories/DisplayProofs.v
theories/DisplayProps.v
theories/TableModel.v
theories/TableSpec.v
theories/TableProofs.v
theories/TableProps.v
theories/ChoiceModel.v
theories/ChoiceSpec.v
theories/ChoiceProofs.v
theories/ChoiceProps.v
theories/TextSpec.v
theories/TextProofs.v
theories/TextProps.v
theories/QuizModel.v
theories/QuizSpec.v
theories/QuizAsk.v
theories/QuizProofs.v
theories/QuizWhole.v
theories/QuizReturns.v
theories/QuizSample.v
theories/QuizProps.v
theories/GroupModel.v
theories/GroupSpec.v
theories/GroupLemmas.v
theories/GroupProofs.v
theories/GroupQuizSpec.v
theories/GroupWhole.v
theories/GroupOutcome.v
theories/GroupFacts.v
theories/GroupSample.v
theories/GroupProps.v
theories/JoinSpec.v
theories/KanaRomajiSpec.v
theories/KanaRomajiProofs.v
theories/KanaRomajiProps.v
theories/UcdLinkSpec.v
theories/UcdLinkProofs.v
theories/UcdLinkProps.v
theories/RadicalModel.v
theories/RadicalSpec.v
theories/RadicalProofs.v
theories/RadicalProps.v
theories/LoadModel.v
theories/LoadSpec.v
theories/LoadProofs.v
theories/LoadAttr.v
theories/LoadPhases.v
theories/LoadLists.v
theories/LoadEnv.v
theories/LoadWhole.v
theories/LoadMade.v
theories/LoadFacts.v
theories/LoadSample.v
theories/LoadProps.v
theories/LoadDetailsSpec.v
theories/LoadDetails.v
theories/LoadDetailsProps.v
theories/JukugoModel.v
theories/JukugoSpec.v
theories/JukugoProofs.v
theories/JukugoLines.v
theories/JukugoLoad.v
theories/JukugoSample.v
theories/JukugoProps.v
theories/FormatModel.v
theories/FormatSpec.v
theories/FormatProofs.v
theories/FormatProps.v
theories/LaunchModel.v
theories/LaunchSpec.v
theories/LaunchProofs.v
theories/LaunchLoop.v
theories/LaunchProps.v
theories/GroupLoadModel.v
theories/GroupLoadSpec.v
theories/GroupLoadProofs.v
theories/GroupLoadProps.v
theories/DetailsModel.v
theories/DetailsSpec.v
theories/DetailsArg.v
theories/DetailsReview.v
theories/DetailsFacts.v
theories/DetailsProps.v
theories/StartModel.v
theories/StartSpec.v
theories/StartProofs.v
theories/StartRun.v
theories/StartProps.v
theories/ProgramModel.v
theories/ProgramSpec.v
theories/ProgramProofs.v
theories/ProgramRun.v
theories/ProgramChartSpec.v
theories/ProgramChart.v
theories/ProgramProps.v
theories/ReportModel.v
theories/ReportSpec.v
theories/ReportProofs.v
theories/ReportRadicals.v
theories/ReportUcd.v
theories/ReportLoaded.v
theories/ReportProps.v
theories/GroupReportModel.v
theories/GroupReportSpec.v
theories/GroupReportProofs.v
theories/GroupReportCounts.v
theories/GroupReportWhole.v
theories/GroupReportProps.v
theories/StatsReportModel.v
theories/StatsReportSpec.v
theories/StatsReportPercent.v
theories/StatsReportCount.v
theories/StatsReportRows.v
theories/StatsReportProofs.v
theories/StatsReportLoaded.v
theories/StatsReportProps.v
theories/LoadLogModel.v
theories/LoadLogSpec.v
theories/LoadLogTrace.v
theories/LoadLogLists.v
theories/LoadLogWhole.v
theories/LoadLogErrors.v
theories/LoadLogExact.v
theories/LoadLogOutput.v
theories/LoadLogProps.v
theories/RowsModel.v
theories/RowsSpec.v
theories/RowsProofs.v
theories/RowsProps.v
theories/DirModel.v
theories/DirSpec.v
theories/DirPaths.v
theories/DirProofs.v
theories/DirSample.v
theories/DirProps.v
theories/QuizDataModel.v
theories/QuizDataSpec.v
theories/QuizDataGroups.v
theories/QuizDataJukugo.v
theories/QuizDataDir.v
theories/QuizDataSample.v
theories/QuizDataProps.v
theories/MainModel.v
theories/MainSpec.v
theories/MainQuiet.v
theories/MainProofs.v
theories/MainNames.v
theories/MainLoad.v
theories/MainQuiz.v
theories/MainShown.v
theories/MainProps.v
theories/ErrBase.v
theories/ErrTableModel.v
theories/ErrTableSpec.v
theories/ErrTableProofs.v
theories/ErrTableRows.v
theories/ErrTableProps.v
theories/ThreadModel.v
theories/ThreadProofs.v
theories/ThreadProps.v
theories/ErrArgsModel.v
theories/ErrArgsSpec.v
theories/ErrArgsProofs.v
theories/ErrArgsProps.v
theories/ErrBaseMain.v
theories/ErrConvertModel.v
theories/ErrConvertSpec.v
theories/ErrConvertProofs.v
theories/ErrConvertProps.v
theories/ErrStatsModel.v
theories/ErrStatsSpec.v
theories/ErrStatsProofs.v
theories/ErrDirModel.v
theories/ErrDirSpec.v
theories/ErrDirProofs.v
theories/ErrStatsProps.v
theories/ErrDetailsModel.v
theories/ErrDetailsSpec.v
theories/ErrDetailsProofs.v
theories/ErrDetailsProps.v
theories/ErrListModel.v
theories/ErrListSpec.v
theories/ErrListProofs.v
theories/ErrListRun.v
theories/ErrListProps.v
theories/ErrJukugoModel.v
theories/ErrJukugoSpec.v
theories/ErrJukugoProofs.v
theories/ErrJukugoLoad.v
theories/ErrJukugoProps.v
theories/ErrRowsModel.v
theories/ErrRowsSpec.v
theories/ErrRowsProofs.v
theories/ErrGroupModel.v
theories/ErrGroupSpec.v
theories/ErrGroupProofs.v
theories/ErrGroupProps.v
theories/ErrUcdModel.v
theories/ErrUcdSpec.v
theories/ErrUcdProofs.v
theories/ErrUcdParts.v
theories/ErrUcdRow.v
theories/ErrUcdTable.v
theories/ErrUcdProps.v
theories/ErrOfficialModel.v
theories/ErrOfficialSpec.v
theories/ErrOfficialProofs.v
theories/ErrOfficialTable.v
theories/ErrOfficialProps.v
theories/ErrLoadModel.v
theories/ErrLoadSame.v
theories/ErrLoadSpec.v
theories/ErrLoadProofs.v
theories/ErrLoadSteps.v
theories/ErrLoadProps.v
theories/ErrEnvSpec.v
theories/ErrEnvProofs.v
theories/ErrEnvProps.v
theories/ErrMainModel.v
theories/ErrMainQuiet.v
theories/ErrMainSpec.v
theories/ErrMainProofs.v
theories/ErrMainProps.v
theories/ErrChoiceModel.v
theories/ErrChoiceSpec.v
theories/ErrChoiceProofs.v
theories/ErrChoiceProps.v
theories/ErrQuizModel.v
theories/ErrQuizSpec.v
theories/ErrQuizProofs.v
theories/ErrQuizRun.v
theories/ErrQuizProps.v
theories/ErrUtilsModel.v
theories/ErrUtilsSpec.v
theories/ErrUtilsProofs.v
theories/ErrUtilsProps.v
theories/BitmaskModel.v
theories/BitmaskSpec.v
theories/BitmaskProps.v
theories/NamedBlockModel.v
theories/NamedBlockSpec.v
theories/NamedBlockProps.v
theories/FreqLoadSpec.v
theories/FreqLoad.v
theories/FreqLoadProps.v
theories/TermModel.v
theories/TermSpec.v
theories/TermProps.v
theories/ConsoleModel.v
theories/ConsoleSpec.v
theories/ConsoleProps.v
theories/KeyQuizModel.v
theories/KeyQuizSpec.v
theories/KeyQuizProofs.v
theories/KeyQuizRun.v
theories/KeyQuizProps.v
