-Q theories Verif
theories/PyBase.v
theories/PyStr.v
theories/PyHeap.v
theories/LHeap.v
theories/MQueue.v
theories/SQueue.v
theories/LQueue.v
theories/MLoop.v
theories/LLoop.v
theories/LLoop2.v
theories/TQueue.v
theories/MThreads.v
theories/SThreads.v
theories/LThreads.v
theories/TThreads.v
theories/TLoop.v
theories/MTime.v
theories/MTimeExpr.v
theories/MEventSource.v
theories/LSort.v
theories/SEvent.v
theories/LEventSource.v
theories/SExpr.v
theories/LTimeExpr.v
theories/LEventSource2.v
theories/TEvent.v
theories/MSched.v
theories/LSched.v
theories/LSched2.v
theories/SSched.v
theories/LSched3.v
theories/TSched.v
theories/MEscape.v
theories/LEscape.v
theories/TEscape.v
theories/MBus.v
theories/SBus.v
theories/LBus.v
theories/MResched.v
theories/LResched.v
theories/TBus.v
theories/MEmit.v
theories/SEmit.v
theories/LEmit.v
theories/LEmit2.v
theories/TEmit.v
theories/LStr.v
theories/MStrategy.v
theories/SStrategy.v
theories/LStrategy.v
theories/LStrategy2.v
theories/LStrategyW.v
theories/TStrategy.v
theories/SOptions.v
theories/TOptions.v
theories/MDate.v
theories/LDate.v
theories/SDate.v
theories/LDate2.v
theories/TDate.v
theories/MStrptime.v
theories/SStrptime.v
theories/LStrptime.v
theories/TStrptime.v
theories/MOrder.v
theories/MAccount.v
theories/MApi.v
theories/SAccount.v
theories/LAccount.v
theories/LAccount2.v
theories/LAccount3.v
theories/LApi.v
theories/TAccount.v
theories/SMoney.v
theories/TMoney.v
theories/MBatch.v
theories/TBatch.v
theories/SSync.v
theories/LSync.v
theories/TSync.v
theories/MGate.v
theories/SGate.v
theories/LGate.v
theories/LGate2.v
theories/LGate3.v
theories/LGate4.v
theories/TGate.v
theories/SLine.v
theories/TLine.v
theories/MCompact.v
theories/TCompact.v
theories/SNumber.v
theories/MNumber.v
theories/LNumber.v
theories/TNumber.v
theories/MWide.v
theories/TWide.v
theories/MNanOrder.v
theories/SNanOrder.v
theories/TNanOrder.v
theories/MNewline.v
theories/SNewline.v
theories/TNewline.v
theories/SWinOrders.v
theories/TWinOrders.v
theories/TShare.v
theories/SOfile.v
theories/TOfile.v
theories/MNotice.v
theories/SNotice.v
theories/TNotice.v
theories/SSystem.v
theories/TSystem.v
theories/MMidnight.v
theories/SMidnight.v
theories/TMidnight.v
theories/MCodec.v
theories/SCodec.v
theories/TCodec.v
theories/SUtf8.v
theories/TUtf8.v
theories/MGrow.v
theories/SGrow.v
theories/TGrow.v
theories/PyFloat.v
theories/MFloat.v
theories/SFloat.v
theories/LFloat.v
theories/LFloat2.v
theories/TFloat.v
theories/SRestart.v
theories/LRestart.v
theories/TRestart.v
theories/MTimer.v
theories/STimer.v
theories/LTimer.v
theories/TTimer.v
theories/PyCsv.v
theories/SCsv.v
theories/MCsv.v
theories/LCsv.v
theories/TCsv.v
theories/TCsv2.v
theories/SLong.v
theories/LLong.v
theories/LLong2.v
theories/TLong.v
theories/MStart.v
theories/SStart.v
theories/LStart.v
theories/TStart.v
theories/PyArgs.v
theories/MMain.v
theories/SMain.v
theories/LMain.v
theories/TMain.v
theories/THelp.v
theories/MViews.v
theories/SViews.v
theories/LViews.v
theories/TViews.v
theories/MZone.v
theories/SZone.v
theories/LZone.v
theories/TZone.v
theories/SLate.v
theories/LLate.v
theories/LLate2.v
theories/LLate3.v
theories/TLate.v
theories/SBound.v
theories/LBound.v
theories/TBound.v
theories/MFolio.v
theories/SFolio.v
theories/TFolio.v
theories/SFolio2.v
theories/TFolio2.v
theories/SSell.v
theories/TSell.v
theories/SEnd.v
theories/LEnd.v
theories/TEnd.v
theories/MDir.v
theories/SDir.v
theories/LDir.v
theories/TDir.v
theories/MNan.v
theories/SNan.v
theories/TNan.v
theories/TSystem2.v
theories/TOnly.v
theories/LHist.v
theories/LHist2.v
theories/THist.v
theories/TRest.v
theories/MSoon.v
theories/TSoon.v
theories/TStop.v
theories/TStop2.v
theories/MCtx.v
theories/TCtx.v
theories/MSetup.v
theories/TSetup.v
theories/MEnable.v
theories/TEnable.v
theories/TCalls.v
theories/SFresh.v
theories/TFresh.v
theories/SFresh2.v
theories/TFresh2.v
theories/MDemo.v
theories/TDemo.v
theories/MDemo2.v
theories/TDemo2.v
theories/STyped.v
theories/TTyped.v
theories/TWhy.v
theories/TLog2.v
theories/MVanish.v
theories/SVanish.v
theories/TVanish.v
theories/MToday.v
theories/TToday.v
theories/SAcked.v
theories/TAcked.v
theories/TPersist3.v
theories/MReadme.v
theories/TReadme.v
theories/TReadme2.v
theories/MUser.v
theories/TUser.v
theories/MShow.v
theories/TShow.v
theories/TTests.v
theories/LTie2.v
theories/TTie.v
theories/TLate2.v
theories/SLife.v
theories/LSync2.v
theories/LLife.v
theories/TLife.v
theories/MUtils.v
theories/SUtils.v
theories/LUtils.v
theories/LUtils2.v
theories/TUtils.v
theories/MTasks.v
theories/STasks.v
theories/LTasks.v
theories/LTasks2.v
theories/TTasks.v
theories/MGetTasks.v
theories/TGetTasks.v
theories/MLog.v
theories/TLog.v
theories/MLine.v
theories/TLogText.v
theories/MLogCtx.v
theories/TLogCtx.v
theories/MLogFile.v
theories/TLogFile.v
theories/TDefaults.v
theories/MAlter.v
theories/TAlter.v
theories/MRetry.v
theories/TRetry.v
theories/MReuse.v
theories/TReuse.v
theories/MEncode.v
theories/SEncode.v
theories/TEncode.v
theories/MJson.v
theories/SJson.v
theories/SJson2.v
theories/LJson.v
theories/LJson2.v
theories/TJson.v
theories/TJson2.v
theories/TJson3.v
theories/TJson4.v
theories/MBalBytes.v
theories/TBalBytes.v
theories/MInstall.v
theories/TInstall.v
theories/MWriter.v
theories/SWriter.v
theories/LWriter.v
theories/TWriter.v
theories/MPersist.v
theories/SPersist.v
theories/LPersist.v
theories/TPersist.v
theories/MPersist2.v
theories/SPersist2.v
theories/TPersist2.v
theories/MFiles.v
theories/SFiles.v
theories/LFiles.v
theories/TFiles.v
theories/MBalance.v
theories/SBalance.v
theories/LBalance.v
theories/TBalance.v
theories/LLive.v
theories/LTie.v
theories/MProcess.v
theories/SWhen.v
theories/SProcess.v
theories/LWhen.v
theories/LProcess.v
theories/TProcess.v
theories/LProcess2.v
theories/TProcess2.v
theories/STimes.v
theories/TTimes.v
theories/STimes2.v
theories/TTimes2.v
theories/TWhen.v
theories/MLock.v
theories/SLock.v
theories/TLock.v
