-Q theories Verif
theories/AddProps.v
theories/AddRefused.v
theories/AddRun.v
theories/ArcModel.v
theories/ArcProps.v
theories/ArgModel.v
theories/ArgProps.v
theories/ArgSpec.v
theories/Base.v
theories/BaseProofs.v
theories/BuildModel.v
theories/BuildMore.v
theories/BuildProps.v
theories/ClientGui.v
theories/ClientModel.v
theories/ClientProps.v
theories/CmdModel.v
theories/CmdProps.v
theories/ConcExact.v
theories/ConcModel.v
theories/ConcProps.v
theories/ConfExamples.v
theories/ConfModel.v
theories/ConfProps.v
theories/ContExact.v
theories/ContModel.v
theories/ContProps.v
theories/CrashExact.v
theories/CrashModel.v
theories/CrashProofs.v
theories/CrashProps.v
theories/CrashSpec.v
theories/CreateCases.v
theories/CreateModel.v
theories/CreateMore.v
theories/CreateOrder.v
theories/CreateProps.v
theories/DbCases.v
theories/DbExamples.v
theories/DbFacts.v
theories/DbInv.v
theories/DbLoad.v
theories/DbModel.v
theories/DbOps.v
theories/DbProps.v
theories/DbRun.v
theories/DbSpec.v
theories/DiffAmounts.v
theories/DiffModel.v
theories/DiffProps.v
theories/DisturbProps.v
theories/DwlLink.v
theories/DwlModel.v
theories/DwlProps.v
theories/ElfExamples.v
theories/ElfModel.v
theories/ElfProps.v
theories/EngineFs.v
theories/EngineRoot.v
theories/EngineWay.v
theories/FetchExamples.v
theories/FetchModel.v
theories/FetchProps.v
theories/FilesModel.v
theories/FilesProps.v
theories/FootModel.v
theories/FootProps.v
theories/FsExt.v
theories/FsExtract.v
theories/FsMisc.v
theories/FsModel.v
theories/FsOps.v
theories/FsProofs.v
theories/FsProps.v
theories/FsSpec.v
theories/GenDeps.v
theories/GenDepsProofs.v
theories/GenDepsProps.v
theories/Graph.v
theories/GuiExamples.v
theories/GuiModel.v
theories/GuiProps.v
theories/GuiSort.v
theories/HexModel.v
theories/HexProps.v
theories/IndexExact.v
theories/IndexModel.v
theories/IndexProofs.v
theories/IndexProps.v
theories/InfoMembers.v
theories/InfoModel.v
theories/InfoProps.v
theories/InstallClosed.v
theories/InstallExamples.v
theories/InstallModel.v
theories/InstallProps.v
theories/InstallRun.v
theories/KeysModel.v
theories/KeysProps.v
theories/ListCases.v
theories/LockModel.v
theories/LockProps.v
theories/LogModel.v
theories/LogProps.v
theories/LoggerModel.v
theories/LoggerProps.v
theories/ManyCase.v
theories/ManyFiles.v
theories/ManyMeta.v
theories/ManyOrder.v
theories/ManyOrderCase.v
theories/ManyRun.v
theories/ManySplit.v
theories/MetaExact.v
theories/MetaModel.v
theories/MetaProofs.v
theories/MetaProps.v
theories/MetaSpec.v
theories/MkdirModel.v
theories/MkdirProps.v
theories/ObjExamples.v
theories/ObjModel.v
theories/ObjProps.v
theories/OpenExact.v
theories/OrderProps.v
theories/PortCases.v
theories/PortObjExamples.v
theories/PortObjModel.v
theories/PortObjProps.v
theories/PortsLists.v
theories/PortsModel.v
theories/PortsProofs.v
theories/PortsProps.v
theories/ProcModel.v
theories/ProcProps.v
theories/ProgressModel.v
theories/ProgressProps.v
theories/PurgeProps.v
theories/QueryModel.v
theories/QueryProps.v
theories/RatioModel.v
theories/RatioProps.v
theories/RatioUp.v
theories/ReadExact.v
theories/RebuildModel.v
theories/RebuildProps.v
theories/RecipeExact.v
theories/RecipeModel.v
theories/RecipeProps.v
theories/RemoveCmd.v
theories/RemoveCmdExamples.v
theories/RemoveCmdProofs.v
theories/RemoveCmdProps.v
theories/RemoveExact.v
theories/RemoveProps.v
theories/RepeatProps.v
theories/RepoModel.v
theories/RepoObjEmpty.v
theories/RepoObjExamples.v
theories/RepoObjGroup.v
theories/RepoObjModel.v
theories/RepoObjMore.v
theories/RepoObjProps.v
theories/RepoProps.v
theories/ReportModel.v
theories/ReportMore.v
theories/ReportProps.v
theories/RmAgain.v
theories/RmOrder.v
theories/RmOrderCase.v
theories/RmSaidModel.v
theories/RmSaidProps.v
theories/RootProps.v
theories/RulesModel.v
theories/RulesProofs.v
theories/RulesProps.v
theories/RulesSpec.v
theories/SaidModel.v
theories/SaidProps.v
theories/ScanExact.v
theories/ScanModel.v
theories/ScanProps.v
theories/SizeModel.v
theories/SizeProps.v
theories/StrExact.v
theories/StrModel.v
theories/StrProofs.v
theories/StrProps.v
theories/StrSpec.v
theories/SyncModel.v
theories/SyncProps.v
theories/TextExact.v
theories/ThreadExamples.v
theories/ThreadModel.v
theories/ThreadPatient.v
theories/ThreadProps.v
theories/ToolModel.v
theories/ToolProps.v
theories/TransExamples.v
theories/TransFiles.v
theories/TransOrphans.v
theories/TriggerModel.v
theories/TriggerProps.v
theories/UpAgain.v
theories/UpCmdExamples.v
theories/UpCmdFiles.v
theories/UpCmdModel.v
theories/UpCmdMore.v
theories/UpCmdProps.v
theories/UpgradeExamples.v
theories/UpgradeProps.v
theories/VisitModel.v
theories/VisitProps.v
theories/WebModel.v
theories/WebProps.v
theories/WebSearch.v
theories/WebToc.v
