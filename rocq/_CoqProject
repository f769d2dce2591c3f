-Q theories Verif
theories/PyStr.v
theories/PyHeap.v
theories/Schema.v
theories/Assoc.v
theories/AssocSpec.v
theories/HeapFacts.v
theories/LinksFacts.v
theories/AssocFacts.v
theories/AddRemoveFacts.v
theories/CtorFacts.v
theories/History.v
theories/HistorySpec.v
theories/HistoryFacts.v
theories/GraphCheck.v
theories/AdmCheck.v
theories/AssocExtra.v
theories/Names.v
theories/TabCIM14.v
theories/TabCIM15.v
theories/TabProfiles.v
theories/Tables.v
theories/TableSpec.v
theories/TableFacts.v
theories/ImpedanceFacts.v
theories/Demo.v
theories/PropAssoc.v
theories/BlankFacts.v
theories/PropTables.v
theories/XmlWriter.v
theories/XmlSpec.v
theories/XmlCalls.v
theories/EscapeFacts.v
theories/DigitFacts.v
theories/Py2Facts.v
theories/XmlWriterFacts.v
theories/XmlParseFacts.v
theories/XmlDocFacts.v
theories/PropXml.v
theories/Reader.v
theories/ReaderSpec.v
theories/ReaderFacts.v
theories/RegionFacts.v
theories/FrameFacts.v
theories/CreateFacts.v
theories/ReaderTabs.v
theories/StatementFacts.v
theories/CompatFacts.v
theories/ReadSound.v
theories/NumFacts.v
theories/ReadStepFacts.v
theories/ReadDocFacts.v
theories/ReadDemo.v
theories/PropReader.v
theories/Pretty.v
theories/PrettySpec.v
theories/PrettyFacts.v
theories/PropPretty.v
theories/XmlFlatFacts.v
theories/CimWriter.v
theories/WriteSpec.v
theories/WriteFacts.v
theories/WriteDocFacts.v
theories/WriteTables.v
theories/PropWriter.v
theories/RoundSpec.v
theories/RoundTables.v
theories/RoundDocFacts.v
theories/RoundFacts.v
theories/RoundMain.v
theories/RoundDemo.v
theories/PropRound.v
theories/ArgSpec.v
theories/ArgFacts.v
theories/RepeatFacts.v
theories/PropCtor.v
theories/VocabSpec.v
theories/VocabFacts.v
theories/PropVocab.v
theories/PropReread.v
theories/LiveFacts.v
theories/PropIter.v
theories/OutputFacts.v
theories/PropOutput.v
theories/ReaderLog.v
theories/LogSpec.v
theories/LogFacts.v
theories/PropLog.v
theories/DocSpec.v
theories/DocFacts.v
theories/RefFacts.v
theories/ReturnFacts.v
theories/OrderFacts.v
theories/DocDemo.v
theories/PropDoc.v
theories/AgainSpec.v
theories/AgainFacts.v
theories/PropAgain.v
theories/PartsSpec.v
theories/PartsFacts.v
theories/PropParts.v
theories/DetachSpec.v
theories/PropDetach.v
theories/ExportSpec.v
theories/PropExport.v
theories/GraphSpec.v
theories/GraphFacts.v
theories/PropGraph.v
theories/MemberSpec.v
theories/MemberFacts.v
theories/ExportDocFacts.v
theories/PropMember.v
theories/FilesSpec.v
theories/FilesFacts.v
theories/PropFiles.v
theories/CrossSpec.v
theories/CrossTables.v
theories/CrossFacts.v
theories/PropCross.v
theories/PropShare.v
theories/WriterLog.v
theories/QuietSpec.v
theories/QuietFacts.v
theories/QuietDocFacts.v
theories/PropQuiet.v
theories/Stream.v
theories/StreamSpec.v
theories/PropStream.v
theories/SecondSpec.v
theories/SecondFacts.v
theories/PropSecond.v
theories/MovesSpec.v
theories/MovesFacts.v
theories/PropMoves.v
theories/Imports.v
theories/TabImports.v
theories/ImportRanks.v
theories/ImportSpec.v
theories/ImportFacts.v
theories/ImportLoads.v
theories/ImportTabs.v
theories/PropImport.v
theories/ImportReader.v
theories/PropImportRead.v
theories/ImportFails.v
theories/PropImportAny.v
theories/Ecore.v
theories/TabEcore.v
theories/EcoreSpec.v
theories/EcoreFacts.v
theories/PropEcore.v
theories/WritableSpec.v
theories/PropWritable.v
theories/MisfitSpec.v
theories/PropMisfit.v
theories/CleanSpec.v
theories/PropClean.v
theories/AttrTypes.v
theories/TabTypes.v
theories/TypesSpec.v
theories/PropTypes.v
theories/OneWay.v
theories/PropOneWay.v
