-Q theories Verif
theories/Base.v
theories/BaseLemmas.v
theories/FloatModel.v
theories/FloatLemmas.v
theories/Types.v
theories/Sample.v
theories/DateModel.v
theories/DateSpec.v
theories/DateProofs.v
theories/DateProps.v
theories/FileModel.v
theories/FileSpec.v
theories/FileProofs.v
theories/FileProps.v
theories/FilterModel.v
theories/FilterSpec.v
theories/FilterLemmas.v
theories/FilterProofs.v
theories/FilterRecords.v
theories/FilterTables.v
theories/FilterApply.v
theories/FilterFacts.v
theories/FilterResults.v
theories/FilterOutput.v
theories/FilterFix.v
theories/FilterWhole.v
theories/FilterMain.v
theories/FilterFinal.v
theories/FilterProps.v
theories/IterModel.v
theories/IterSpec.v
theories/IterProofs.v
theories/IterKinds.v
theories/IterAgree.v
theories/IterMain.v
theories/IterProps.v
theories/MergeModel.v
theories/MergeSpec.v
theories/MergeProofs.v
theories/MergeNames.v
theories/MergeNamed.v
theories/MergeTables.v
theories/MergeTargets.v
theories/MergeHeader.v
theories/MergeData.v
theories/MergeWhole.v
theories/MergeFacts.v
theories/MergeMain.v
theories/MergeProps.v
theories/CheckModel.v
theories/CheckSpec.v
theories/CheckProofs.v
theories/CheckReports.v
theories/CheckRules.v
theories/CheckWhole.v
theories/CheckMain.v
theories/CheckProps.v
theories/FitsModel.v
theories/WriteModel.v
theories/ReadModel.v
theories/IOSpec.v
theories/FitsRows.v
theories/FitsText.v
theories/WriteTables.v
theories/WriteProofs.v
theories/WriteData.v
theories/WriteVis.v
theories/ReadCells.v
theories/ReadProofs.v
theories/ReadVis.v
theories/KeySpec.v
theories/WriteKeys.v
theories/IOClaims.v
theories/ReadFile.v
theories/RoundTrip.v
theories/IOProofs.v
theories/IOSkip.v
theories/IOMain.v
theories/IOProps.v
theories/HeapModel.v
theories/HeapSpec.v
theories/HeapProofs.v
theories/HeapDup.v
theories/HeapTables.v
theories/HeapFree.v
theories/HeapAlloc.v
theories/HeapMain.v
theories/HeapProps.v
theories/HeapFilterModel.v
theories/HeapFilterSpec.v
theories/HeapGrow.v
theories/HeapFilterTab.v
theories/HeapFilterOne.v
theories/HeapFilterPol.v
theories/HeapFilterAll.v
theories/HeapFilterHeld.v
theories/HeapFilterApply.v
theories/HeapFilterMain.v
theories/HeapFilterProps.v
theories/HeapMergeModel.v
theories/HeapMergeSpec.v
theories/HeapMergeTab.v
theories/HeapMergeTarget.v
theories/HeapMergeAll.v
theories/HeapMergeWhole.v
theories/HeapMergeMain.v
theories/HeapMergeProps.v
theories/LayoutSpec.v
theories/LayoutProofs.v
theories/LayoutTables.v
theories/LayoutFile.v
theories/LayoutMain.v
theories/LayoutProps.v
theories/ToolModel.v
theories/ToolFilter.v
theories/ToolMerge.v
theories/ReadWf.v
theories/ToolSpec.v
theories/ToolProofs.v
theories/ToolPrograms.v
theories/ToolMain.v
theories/ToolProps.v
theories/ConformSpec.v
theories/ConformFilter.v
theories/ConformMerge.v
theories/MergeRenaming.v
theories/ConformStore.v
theories/ConformTools.v
theories/ConformMain.v
theories/ConformProps.v
theories/HeapReadModel.v
theories/HeapReadSpec.v
theories/HeapReadVis.v
theories/HeapReadAll.v
theories/HeapReadWhole.v
theories/HeapReadMain.v
theories/HeapReadProps.v
theories/FilterThenSpec.v
theories/FilterStepsSpec.v
theories/FilterStepsProofs.v
theories/FilterStepsRecords.v
theories/FilterStepsWhole.v
theories/FilterThenWhole.v
theories/FilterThenMain.v
theories/FilterThenProps.v
theories/MergeStepsSpec.v
theories/MergeSteps.v
theories/MergeStepsWhole.v
theories/MergeStepsHeader.v
theories/MergeStepsMain.v
theories/MergeStepsProps.v
theories/DemoModel.v
theories/DemoSpec.v
theories/DemoProofs.v
theories/DemoWhole.v
theories/ByName.v
theories/DemoMain.v
theories/DemoProps.v
theories/WritableSpec.v
theories/WritableProofs.v
theories/WritableTables.v
theories/WritableWhole.v
theories/CutSpec.v
theories/CutProofs.v
theories/CutTables.v
theories/CutWhole.v
theories/WritableMain.v
theories/WritableProps.v
theories/TwiceSpec.v
theories/TwiceProofs.v
theories/TwiceMain.v
theories/TwiceProps.v
theories/ScanModel.v
theories/ScanSpec.v
theories/ScanWords.v
theories/ScanSteps.v
theories/ScanProofs.v
theories/ScanData.v
theories/ScanFile.v
theories/ScanWhole.v
theories/ScanMain.v
theories/ScanProps.v
theories/ReportModel.v
theories/ReportSpec.v
theories/ReportProofs.v
theories/ReportWhole.v
theories/ReportMain.v
theories/ReportProps.v
theories/ChksumModel.v
theories/ChksumSpec.v
theories/ChksumProofs.v
theories/ChksumWrite.v
theories/ChksumWhole.v
theories/ChksumMain.v
theories/ChksumProps.v
theories/LongModel.v
theories/LongSpec.v
theories/LongProofs.v
theories/LongMain.v
theories/LongProps.v
theories/FindingMain.v
theories/FindingProps.v
theories/PyModel.v
theories/PySpec.v
theories/PyProofs.v
theories/PyAccount.v
theories/PyTools.v
theories/PyMain.v
theories/PyProps.v
theories/CommuteSpec.v
theories/CommuteData.v
theories/CommuteWhole.v
theories/CommuteMain.v
theories/CommuteCases.v
theories/CommuteProps.v
theories/OddMain.v
theories/OddProps.v
theories/FilterAgain.v
theories/FilterAgainProps.v
theories/FilterThenMore.v
theories/FilterThenMoreMain.v
theories/FilterThenMoreProps.v
theories/PyShowSpec.v
theories/PyShow.v
theories/PyShowProps.v
theories/PipeSpec.v
theories/PipeOptions.v
theories/PipeProofs.v
theories/PipeWhole.v
theories/PipeMain.v
theories/PipeProps.v
theories/StepsSpec.v
theories/StepsStored.v
theories/StepsWhole.v
theories/StepsFiles.v
theories/StepsMain.v
theories/StepsProps.v
theories/HiddenSpec.v
theories/HiddenProofs.v
theories/HiddenProps.v
theories/TformModel.v
theories/TformSpec.v
theories/TformProofs.v
theories/TformMain.v
theories/TformProps.v
