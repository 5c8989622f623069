-Q theories Verif
theories/Bytes.v
theories/BytesProofs.v
theories/Ring.v
theories/RingSpec.v
theories/RingProofs.v
theories/RingRefine.v
theories/RingHistory.v
theories/RingInv.v
theories/RingObs.v
theories/RingLemmas.v
theories/RingLemmas2.v
theories/RingLemmas3.v
theories/PropsRing.v
theories/Parse.v
theories/Iov.v
theories/ParseSpec.v
theories/ParseProofs.v
theories/ParseE2E.v
theories/ParseOverflow.v
theories/PropsParse.v
theories/BinChunk.v
theories/BinChunkSpec.v
theories/BinChunkProofs.v
theories/PropsBinChunk.v
theories/Cookies.v
theories/CookiesSpec.v
theories/CookiesProofs.v
theories/CookiesLive.v
theories/PropsCookies.v
theories/Writer.v
theories/WriterSpec.v
theories/WriterProofs.v
theories/WriterCalls.v
theories/WriterFd.v
theories/PropsWriter.v
theories/Macros.v
theories/PropsMacros.v
theories/Registry.v
theories/PropsRegistry.v
theories/WaitQ.v
theories/WaitQProofs.v
theories/PropsWaitQ.v
theories/Cat.v
theories/CatSpec.v
theories/CatProofs.v
theories/CatMerge.v
theories/PropsCat.v
theories/Render.v
theories/RenderSpec.v
theories/RenderProofs.v
theories/PropsRender.v
theories/Klog.v
theories/KlogSpec.v
theories/KlogProofs.v
theories/PropsKlog.v
theories/DList.v
theories/DListSpec.v
theories/DListProofs.v
theories/PropsDList.v
theories/Kmsgd.v
theories/KmsgdSpec.v
theories/KmsgdProofs.v
theories/PropsKmsgd.v
theories/Shd.v
theories/ShdProofs.v
theories/PropsShd.v
theories/Syslog.v
theories/SyslogProofs.v
theories/PropsSyslog.v
theories/Redirect.v
theories/RedirectProofs.v
theories/PropsRedirect.v
theories/Stream.v
theories/PropsStream.v
theories/Ctl.v
theories/PropsCtl.v
theories/Ulogger.v
theories/UloggerSpec.v
theories/PropsUlogger.v
theories/Versions.v
theories/PropsVersions.v
theories/Threadx.v
theories/ThreadxSpec.v
theories/ThreadxProofs.v
theories/PropsThreadx.v
theories/Relay.v
theories/RelaySpec.v
theories/RelayProofs.v
theories/PropsRelay.v
theories/Py.v
theories/PySpec.v
theories/PyProofs.v
theories/PropsPy.v
theories/CtlTool.v
theories/PropsCtlTool.v
theories/CatOpen.v
theories/CatOpenSpec.v
theories/CatOpenProofs.v
theories/PropsCatOpen.v
theories/Wrapper.v
theories/PropsWrapper.v
theories/Live.v
theories/LiveSpec.v
theories/LiveProofs.v
theories/LiveDump.v
theories/LiveText.v
theories/PropsLive.v
theories/SaidSpec.v
theories/PropsSaid.v
theories/FollowSpec.v
theories/FollowProofs.v
theories/PropsFollow.v
theories/Busy.v
theories/BusySpec.v
theories/BusyProofs.v
theories/BusyRun.v
theories/PropsBusy.v
theories/BusyLive.v
theories/PropsSettle.v
theories/Devopen.v
theories/PropsDevopen.v
theories/Shdlogd.v
theories/ShdlogdSpec.v
theories/ShdlogdProofs.v
theories/PropsShdlogd.v
theories/ShdLock.v
theories/ShdLockProofs.v
theories/PropsShdLock.v
theories/CtlMem.v
theories/PropsCtlMem.v
theories/KlogRead.v
theories/KlogReadSpec.v
theories/PropsKlogRead.v
theories/CatOut.v
theories/CatOutProofs.v
theories/PropsCatOut.v
theories/StreamThreads.v
theories/PropsStreamThreads.v
theories/Errno.v
theories/PropsErrno.v
theories/PySetup.v
theories/PropsPySetup.v
theories/ThreadxRest.v
theories/PropsThreadxRest.v
theories/SignalLog.v
theories/SignalLogProofs.v
theories/PropsSignalLog.v
theories/RedirectLife.v
theories/PropsRedirectLife.v
theories/Cerr.v
theories/PropsCerr.v
theories/KmsgdShow.v
theories/KmsgdShowSpec.v
theories/PropsKmsgdShow.v
theories/CtlSys.v
theories/CtlSysSpec.v
theories/PropsCtlSys.v
theories/RingRetain.v
theories/Program.v
theories/ProgramSpec.v
theories/PropsProgram.v
theories/Stamp.v
theories/StampSpec.v
theories/PropsStamp.v
theories/ToolRun.v
theories/ToolRunSpec.v
theories/PropsToolRun.v
theories/SrvApp.v
theories/SrvAppSpec.v
theories/PropsSrvApp.v
theories/ScreenProofs.v
theories/UloggerRun.v
theories/UloggerRunSpec.v
theories/PropsUloggerRun.v
theories/ShdRun.v
theories/ShdRunSpec.v
theories/MixedProofs.v
theories/ShdRunProofs.v
theories/PropsShdRun.v
theories/SaidRunSpec.v
theories/SaidScreen.v
theories/SyslogRun.v
theories/SyslogRunSpec.v
theories/PropsSyslogRun.v
theories/FrontRun.v
theories/FrontRunSpec.v
theories/PropsFrontRun.v
theories/StreamRun.v
theories/StreamRunSpec.v
theories/PropsStreamRun.v
theories/PropsOwnLoss.v
theories/ToolLink.v
theories/PropsToolLink.v
theories/CsvSpec.v
theories/PropsCsv.v
theories/ScreenReadSpec.v
theories/PropsScreenRead.v
theories/FormatsSpec.v
theories/PropsFormats.v
theories/CtlLife.v
theories/CtlLifeSpec.v
theories/PropsCtlLife.v
theories/RestoreSpec.v
theories/PropsRestore.v
theories/BlobSpec.v
theories/BlobProofs.v
theories/PropsBlob.v
theories/PropsBanner.v
theories/Minor.v
theories/PropsMinor.v
theories/PyLoop.v
theories/PropsPyLoop.v
theories/LinSpec.v
theories/LinProofs.v
theories/PropsLin.v
theories/PropsColour.v
theories/ConcSpec.v
theories/ConcProofs.v
theories/PropsConc.v
theories/KlogTextSpec.v
theories/PropsKlogText.v
theories/Shell.v
theories/ShellSpec.v
theories/PropsShell.v
theories/PyDev.v
theories/PyDevSpec.v
theories/PropsPyDev.v
theories/Load.v
theories/LoadSpec.v
theories/PropsLoad.v
theories/PyRun.v
theories/PyRunSpec.v
theories/PropsPyRun.v
theories/Unload.v
theories/UnloadSpec.v
theories/UnloadProofs.v
theories/PropsUnload.v
theories/PropsRegistryLine.v
