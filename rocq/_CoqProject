-Q theories Verif
theories/Base.v
theories/ListModel.v
theories/ListProofs.v
theories/ListSpec.v
theories/ListRefine.v
theories/PropsList.v
theories/HandleModel.v
theories/HandleSpec.v
theories/HandleProofs.v
theories/PropsHandle.v
theories/TypeModel.v
theories/TypeSpec.v
theories/TypeProofs.v
theories/TypeStruct.v
theories/TypeCons.v
theories/TypeTree.v
theories/TypeMore.v
theories/TypeFinal.v
theories/PropsType.v
theories/CopyModel.v
theories/CopySpec.v
theories/CopyProofs.v
theories/PackProofs.v
theories/CopyFinal.v
theories/CopyEx.v
theories/PropsCopy.v
theories/HandleExact.v
theories/SysModel.v
theories/CollModel.v
theories/SysCalls.v
theories/SysSpec.v
theories/SysLog.v
theories/SysReach.v
theories/SysInv.v
theories/SysAbs.v
theories/SysSim.v
theories/SysSim2.v
theories/SysSim3.v
theories/SysHist.v
theories/SysFacts.v
theories/SysFacts2.v
theories/SysFacts3.v
theories/SysFacts4.v
theories/SysFacts5.v
theories/SysFacts6.v
theories/SysEx.v
theories/CollSpec.v
theories/GroupFacts.v
theories/CollFacts.v
theories/SysFinal.v
theories/PropsOrder.v
theories/PropsMatch.v
theories/PropsReq.v
theories/PropsComm.v
theories/PropsXfer.v
theories/PropsColl.v
theories/PropsGroup.v
theories/MiscModel.v
theories/MiscSpec.v
theories/MiscFacts.v
theories/WtimeModel.v
theories/WtimeSpec.v
theories/DoubleFacts.v
theories/WtimeFacts.v
theories/RetModel.v
theories/RetFacts.v
theories/PropsMisc.v
theories/PropsRet.v
theories/ThreadModel.v
theories/ThreadSpec.v
theories/ThreadFacts.v
theories/HeaderModel.v
theories/FortModel.v
theories/FortSpec.v
theories/FortFacts.v
theories/PropsThread.v
theories/PropsFort.v
theories/BindModel.v
theories/BindSpec.v
theories/BindFacts.v
theories/PropsBind.v
theories/LiveSpec.v
theories/LiveFacts.v
theories/StoreFacts.v
theories/PropsLive.v
theories/StubModel.v
theories/ConstSpec.v
theories/ConstFacts.v
theories/PropsConst.v
theories/FlowSpec.v
theories/FlowFacts.v
theories/StaleFacts.v
theories/FlowEx.v
theories/PropsFlow.v
theories/MoveSpec.v
theories/MoveFacts.v
theories/MoveEx.v
theories/PropsMove.v
theories/FormSpec.v
theories/FormFacts.v
theories/StsSpec.v
theories/CountFacts.v
theories/StsFacts.v
theories/PropsSts.v
theories/FirstFacts.v
theories/PropsFirst.v
theories/PropsForm.v
theories/MeetSpec.v
theories/MeetFacts.v
theories/PropsMeet.v
theories/PrintModel.v
theories/PrintSpec.v
theories/PrintFacts.v
theories/PropsPrint.v
theories/ExitSpec.v
theories/ExitFacts.v
theories/RestFacts.v
theories/PropsRest.v
theories/CheckModel.v
theories/CheckSpec.v
theories/CheckFacts.v
theories/PropsCheck.v
theories/AllocModel.v
theories/AllocFacts.v
theories/PropsAlloc.v
theories/ExchangeSpec.v
theories/ExchangeFacts.v
theories/PropsExchange.v
theories/FinitModel.v
theories/FinitSpec.v
theories/FinitFacts.v
theories/PropsFinit.v
theories/ListMainModel.v
theories/ListMainSpec.v
theories/ListMainFacts.v
theories/PropsListMain.v
theories/CtestModel.v
theories/FtestModel.v
theories/TestsFacts.v
theories/PropsTests.v
theories/TraceModel.v
theories/TraceSpec.v
theories/TraceFacts.v
theories/PropsTrace.v
theories/PairSpec.v
theories/PairFacts.v
theories/PropsPair.v
theories/CourseSpec.v
theories/CourseFacts.v
theories/PropsCourse.v
theories/LinkModel.v
theories/LinkSpec.v
theories/LinkFacts.v
theories/PropsLink.v
theories/UseSpec.v
theories/UseFacts.v
theories/PropsUse.v
theories/BuildModel.v
theories/BuildSpec.v
theories/BuildFacts.v
theories/PropsBuild.v
theories/MixSpec.v
theories/MixFacts.v
theories/PropsMix.v
theories/ConfModel.v
theories/ConfSpec.v
theories/ConfFacts.v
theories/PropsConf.v
theories/NameModel.v
theories/NameSpec.v
theories/NameFacts.v
theories/PropsName.v
theories/TextModel.v
theories/TextSpec.v
theories/TextFacts.v
theories/PropsText.v
theories/SourceModel.v
theories/SourceSpec.v
theories/SourceFacts.v
theories/BodySpec.v
theories/BodyFacts.v
theories/PropsSource.v
theories/RunSpec.v
theories/RunFacts.v
theories/RunCalls.v
theories/RunList.v
theories/PropsRun.v
theories/RunListSpec.v
theories/RunHist.v
theories/PropsRunHist.v
