-Q theories Verif
theories/Base.v
theories/BaseFacts.v
theories/Util.v
theories/UtilSpec.v
theories/UtilText.v
theories/UtilLz.v
theories/PropsUtil.v
theories/BaseBlock.v
theories/Marvin.v
theories/Types.v
theories/Value.v
theories/Node.v
theories/Recover.v
theories/Parser.v
theories/TxLog.v
theories/LayoutSpec.v
theories/LayoutFacts.v
theories/HeaderFacts.v
theories/PropsHeader.v
theories/TxSpec.v
theories/TxParse.v
theories/TxApply.v
theories/NodeFrame.v
theories/TxBuild.v
theories/Demo.v
theories/PropsTx.v
theories/CellSpec.v
theories/CellFacts.v
theories/CellData.v
theories/CellList.v
theories/CellExtra.v
theories/CellRead.v
theories/DemoCell.v
theories/PropsCell.v
theories/TreeSpec.v
theories/TreeRead.v
theories/TreeIter.v
theories/TreeOpen.v
theories/BuildBytes.v
theories/TreeFilter.v
theories/TreeLook.v
theories/TreeUse.v
theories/AnyFile.v
theories/AnyOpen.v
theories/Pure.v
theories/History.v
theories/TreeCount.v
theories/TreeSession.v
theories/TreeFilterPost.v
theories/DemoTree.v
theories/PropsTree.v
theories/ScanSpec.v
theories/ScanFacts.v
theories/Recovered.v
theories/ScanOpen.v
theories/ScanAll.v
theories/DemoScan.v
theories/PropsScan.v
theories/LiveSpec.v
theories/LiveView.v
theories/LiveOpen.v
theories/LivePlain.v
theories/PropsLive.v
theories/StoreSpec.v
theories/StoreFacts.v
theories/PropsStore.v
theories/Log.v
theories/LogSpec.v
theories/LogFacts.v
theories/AnalysisSpec.v
theories/AnalysisFacts.v
theories/AnalysisStore.v
theories/AnalysisAll.v
theories/AnalysisLoss.v
theories/AnalysisReach.v
theories/AnalysisTrace.v
theories/DemoLog.v
theories/DemoAnalysis.v
theories/PropsAnalysis.v
theories/PropsLog.v
theories/Export.v
theories/ExportSpec.v
theories/ExportFacts.v
theories/DemoExport.v
theories/PropsExport.v
theories/Compare.v
theories/CompareSpec.v
theories/CompareRead.v
theories/CompareFacts.v
theories/CompareTree.v
theories/DemoCompare.v
theories/PropsCompare.v
theories/NavSpec.v
theories/NavRead.v
theories/NavFacts.v
theories/NavRoot.v
theories/PropsNav.v
theories/Date.v
theories/DateSpec.v
theories/DateFacts.v
theories/DateTree.v
theories/PropsDate.v
theories/VersionSpec.v
theories/VersionFacts.v
theories/PropsVersion.v
theories/Show.v
theories/ShowSpec.v
theories/ShowFacts.v
theories/PropsShow.v
theories/Xlsx.v
theories/XlsxSpec.v
theories/XlsxFacts.v
theories/XlsxRows.v
theories/XlsxAll.v
theories/XlsxSheet.v
theories/XlsxRoom.v
theories/XlsxHive.v
theories/PropsXlsx.v
theories/Folder.v
theories/FolderSpec.v
theories/FolderFacts.v
theories/PropsFolder.v
theories/Json.v
theories/JsonSpec.v
theories/JsonFacts.v
theories/JsonDoc.v
theories/JsonSays.v
theories/JsonTree.v
theories/PropsJson.v
theories/Python.v
theories/DecodeSpec.v
theories/DecodeFacts.v
theories/PythonSpec.v
theories/PythonFacts.v
theories/PropsPython.v
theories/FreeSpec.v
theories/DemoFree.v
theories/Ends.v
theories/RecIter.v
theories/FreeKept.v
theories/PropsFree.v
theories/AbortSpec.v
theories/NoAbort.v
theories/HandSpec.v
theories/HandFacts.v
theories/PropsAbort.v
theories/ExportSafe.v
theories/PropsWrite.v
theories/Dump.v
theories/DumpSpec.v
theories/XlsxEnds.v
theories/DumpFacts.v
theories/PartSpec.v
theories/PartFacts.v
theories/PropsPart.v
theories/PropsDump.v
theories/CompareRun.v
theories/CompareRunSpec.v
theories/CompareRunFacts.v
theories/PropsCompareRun.v
theories/Disk.v
theories/DiskSpec.v
theories/DiskFacts.v
theories/PropsDisk.v
theories/Sink.v
theories/SinkSpec.v
theories/SinkFacts.v
theories/PropsSink.v
theories/Source.v
theories/SourceSpec.v
theories/SourceFacts.v
theories/PropsSource.v
theories/ReplaySpec.v
theories/ReplayFacts.v
theories/RecoverOpen.v
theories/PropsReplay.v
theories/FilterBuild.v
theories/FilterSpec.v
theories/FilterFacts.v
theories/PropsFilter.v
theories/Exit.v
theories/ExitSpec.v
theories/ExitFacts.v
theories/PropsExit.v
theories/XlsxLook.v
theories/LookSpec.v
theories/LookFacts.v
theories/PropsLook.v
theories/Secure.v
theories/PropsSecure.v
theories/DemoOrder.v
theories/OrderPlain.v
theories/OrderSpec.v
theories/OrderFacts.v
theories/OrderRuns.v
theories/PropsOrder.v
theories/OddSpec.v
theories/OddFacts.v
theories/PropsOdd.v
theories/BlindFacts.v
theories/PropsBlind.v
theories/LookEnds.v
theories/PropsLookEnds.v
theories/PropsPast.v
theories/DiffRead.v
theories/PropsDiffRead.v
theories/WhereSpec.v
theories/WhereFacts.v
theories/PropsWhere.v
theories/Console.v
theories/ConsoleSpec.v
theories/ConsoleFacts.v
theories/PropsConsole.v
theories/CutSpec.v
theories/CutFacts.v
theories/CutKeys.v
theories/CutLook.v
theories/CutPath.v
theories/DemoCut.v
theories/PropsCut.v
theories/FillSpec.v
theories/FillFacts.v
theories/FillView.v
theories/FillField.v
theories/DemoFill.v
theories/PropsFill.v
theories/FoundSpec.v
theories/FoundFacts.v
theories/FoundName.v
theories/FoundAll.v
theories/PropsFound.v
