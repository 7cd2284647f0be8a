-Q theories Verif
theories/DecModel.v
theories/LedgerTypes.v
theories/BookModel.v
theories/DecProofs.v
theories/BookSpec.v
theories/BookLib.v
theories/BookSteps.v
theories/BookInv.v
theories/BookWf.v
theories/BookLife.v
theories/BookUnits.v
theories/BookPend.v
theories/BookSuccess.v
theories/BookPads.v
theories/BookFacts.v
theories/SampleLib.v
theories/SampleLedgers.v
theories/BookProps.v
theories/ReportSpec.v
theories/BookReports.v
theories/BookLocate.v
theories/ReportFacts.v
theories/BookSim.v
theories/SimFacts.v
theories/BookTotal.v
theories/BookExtend.v
theories/BookWindow.v
theories/BookOutput.v
theories/LedgerMeaning.v
theories/SoFar.v
theories/ReportMore.v
theories/SpanModel.v
theories/SpanSpec.v
theories/SpanFacts.v
theories/PadFacts.v
theories/ReportSamples.v
theories/ReportProps.v
theories/IsoModel.v
theories/IsoFacts.v
theories/JsonModel.v
theories/WireModel.v
theories/WireSpec.v
theories/WireFacts.v
theories/WireSamples.v
theories/WireProps.v
theories/ParserModel.v
theories/JsonText.v
theories/ServerModel.v
theories/ServerSpec.v
theories/ParserSpec.v
theories/TextFacts.v
theories/ServerFacts.v
theories/ParserFacts.v
theories/OutputSpec.v
theories/OutputFacts.v
theories/AnswerFacts.v
theories/ServerSamples.v
theories/ServerProps.v
theories/LauncherModel.v
theories/LauncherSpec.v
theories/LauncherFacts.v
theories/LauncherProps.v
theories/CljModel.v
theories/InventoryModel.v
theories/InventorySpec.v
theories/OrderFacts.v
theories/InventoryFacts.v
theories/InventoryMain.v
theories/InventoryTotal.v
theories/InventoryKinds.v
theories/InventoryProps.v
theories/ClientModel.v
theories/ClientSpec.v
theories/ClientDecode.v
theories/ClientFacts.v
theories/ClientMain.v
theories/ClientSamples.v
theories/ClientProps.v
theories/RollupModel.v
theories/RollupSpec.v
theories/RollupFacts.v
theories/RollupMain.v
theories/RollupProps.v
theories/FormatModel.v
theories/NumText.v
theories/NumFacts.v
theories/FormatProps.v
theories/PluginModel.v
theories/PluginSpec.v
theories/PluginFacts.v
theories/PluginMerge.v
theories/PluginProps.v
theories/LoaderModel.v
theories/LoaderSpec.v
theories/LoaderFacts.v
theories/LoaderProps.v
theories/EncodeModel.v
theories/EncodeFacts.v
theories/EncodeStable.v
theories/ReadModel.v
theories/ReadSpec.v
theories/ReadFacts.v
theories/ReadWrite.v
theories/SystemModel.v
theories/SystemFacts.v
theories/SystemLoad.v
theories/SystemSpec.v
theories/SystemErrors.v
theories/SystemTrace.v
theories/SystemPrint.v
theories/SystemProps.v
theories/AutoModel.v
theories/AutoSpec.v
theories/AutoFacts.v
theories/AutoProps.v
theories/SpecModel.v
theories/SpecSpec.v
theories/SpecFacts.v
theories/SpecProps.v
theories/CellModel.v
theories/CellSpec.v
theories/CellFacts.v
theories/CellProps.v
theories/UserModel.v
theories/UserSpec.v
theories/UserProps.v
theories/ReadProps.v
theories/PipeModel.v
theories/PipeSpec.v
theories/PipeFacts.v
theories/PipeProps.v
theories/AutoLedgerSpec.v
theories/AutoLedgerFacts.v
theories/AutoLedgerProps.v
theories/ViewSpec.v
theories/ViewFacts.v
theories/ViewProps.v
theories/SameSpec.v
theories/SameFacts.v
theories/SameProps.v
theories/ShowModel.v
theories/ShowSpec.v
theories/ShowFacts.v
theories/ShowProps.v
theories/EditModel.v
theories/EditSpec.v
theories/EditFacts.v
theories/EditRead.v
theories/EditProps.v
theories/MixSpec.v
theories/MixFacts.v
theories/MixProps.v
theories/AfterSpec.v
theories/AfterFacts.v
theories/AfterProps.v
theories/EdnModel.v
theories/EdnSpec.v
theories/EdnWords.v
theories/EdnNumbers.v
theories/EdnForms.v
theories/EdnPrint.v
theories/EdnProps.v
theories/TextSpec.v
theories/WriteSpec.v
theories/TextWords.v
theories/TextRead.v
theories/WriteFacts.v
theories/WriteCost.v
theories/WritePosting.v
theories/WriteDirective.v
theories/WriteDecode.v
theories/PrintModel.v
theories/PrintProps.v
theories/GoldenModel.v
theories/GoldenSpec.v
theories/GoldenFacts.v
theories/GoldenProps.v
theories/EqualSpec.v
theories/EqualFacts.v
theories/EqualKeys.v
theories/EqualProps.v
theories/PeriodModel.v
theories/PeriodSpec.v
theories/PeriodFacts.v
theories/PeriodProps.v
theories/BalanceSpec.v
theories/BalanceFacts.v
theories/BalanceProps.v
theories/RebookSpec.v
theories/RebookFacts.v
theories/RebookProps.v
theories/AnnotSpec.v
theories/AnnotFacts.v
theories/AnnotProps.v
theories/SplitSpec.v
theories/SplitFacts.v
theories/SplitProps.v
theories/ShuffleSpec.v
theories/ShuffleFacts.v
theories/ShuffleProps.v
theories/RenameSpec.v
theories/RenameFacts.v
theories/RenameProps.v
theories/GrowFacts.v
theories/GrowProps.v
theories/LeaveSpec.v
theories/LeaveFacts.v
theories/LeaveProps.v
theories/LiftSpec.v
theories/LiftProps.v
theories/CompleteSpec.v
theories/CompleteFacts.v
theories/CompleteProps.v
theories/CommoditySpec.v
theories/CommodityFacts.v
theories/CommodityProps.v
theories/MachineModel.v
theories/MachineSpec.v
theories/MachineFacts.v
theories/MachineProps.v
theories/ReplModel.v
theories/ReplSpec.v
theories/ReplProps.v
