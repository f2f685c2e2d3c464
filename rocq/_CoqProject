-Q theories Verif
theories/Base.v
theories/BaseLemmas.v
theories/SpecInt.v
theories/IntCodec.v
theories/IntProofs.v
theories/PropInt.v
theories/HuffmanTable.v
theories/StaticTable.v
theories/SpecHuffman.v
theories/Huffman.v
theories/HuffmanProofs.v
theories/PropHuffman.v
theories/SpecTable.v
theories/DynTable.v
theories/DynTableProofs.v
theories/PropTable.v
theories/SpecHpack.v
theories/HpackDec.v
theories/HpackLemmas.v
theories/HpackDecProofs.v
theories/PropHpackDec.v
theories/SpecHpackEnc.v
theories/HpackEnc.v
theories/HpackEncProofs.v
theories/HpackEncLost.v
theories/SpecHpackKept.v
theories/HpackEncKept.v
theories/HpackEncOnce.v
theories/PropHpackEnc.v
theories/SpecFrames.v
theories/Frames.v
theories/FramesProofs.v
theories/PropFrames.v
theories/Http.v
theories/Conn.v
theories/SpecConn.v
theories/SpecFlow.v
theories/HpackEncSize.v
theories/ConnLemmas.v
theories/ConnRule.v
theories/ConnBasic.v
theories/ConnTerm.v
theories/ConnRun.v
theories/ConnSpec.v
theories/ConnMain.v
theories/ConnDet.v
theories/ConnMore.v
theories/ConnUndef.v
theories/ConnLast.v
theories/ConnWit.v
theories/ConnFlow.v
theories/PropConn.v
theories/ConnBad.v
theories/PropFlow.v
theories/FileSys.v
theories/Files.v
theories/SpecFiles.v
theories/FilesProofs.v
theories/FilesServe.v
theories/FilesText.v
theories/PropFiles.v
theories/Router.v
theories/SpecRouter.v
theories/RouterProofs.v
theories/PropRouter.v
theories/App.v
theories/AccessLog.v
theories/SpecApp.v
theories/AppProofs.v
theories/PropApp.v
theories/Poller.v
theories/Transport.v
theories/SocketFd.v
theories/Server.v
theories/SpecServer.v
theories/SpecDelivery.v
theories/ServerProofs.v
theories/ServerReach.v
theories/SocketProofs.v
theories/PropServer.v
theories/ServerHistory.v
theories/ServerGrows.v
theories/PropServer2.v
theories/ProgramExt.v
theories/SpecProgram.v
theories/ProgramProofs.v
theories/PropProgram.v
theories/Main.v
theories/SpecLog.v
theories/LogProofs.v
theories/PropLog.v
theories/StatusText.v
theories/StatusPage.v
theories/SpecStatus.v
theories/StatusProofs.v
theories/PropStatus.v
theories/Tls.v
theories/SpecTls.v
theories/TlsProofs.v
theories/TlsLife.v
theories/TlsLifeProofs.v
theories/PropTls.v
theories/Listener.v
theories/SpecListener.v
theories/ListenerProofs.v
theories/PropListener.v
theories/SpecEarly.v
theories/ServerMore.v
theories/PropServer3.v
theories/RouterLife.v
theories/SpecRouterLife.v
theories/RouterLifeProofs.v
theories/PropRouterLife.v
theories/WaitProofs.v
theories/ServerAgain.v
theories/AgainProofs.v
theories/PropServer4.v
theories/Console.v
theories/ConsoleProofs.v
theories/PropConsole.v
theories/SpecRules.v
theories/SpecResponses.v
theories/RulesProofs.v
theories/PropRules.v
theories/PropResponses.v
theories/SpecTree.v
theories/TreeProofs.v
theories/PropTree.v
theories/Alpn.v
theories/PropAlpn.v
theories/RepoTests.v
theories/Messages.v
theories/SpecMessages.v
theories/MessagesProofs.v
theories/MessagesRule.v
theories/MessagesFiles.v
theories/PropMessages.v
theories/Spans.v
theories/SpecSpans.v
theories/SpansProofs.v
theories/SpansWit.v
theories/PropSpans.v
theories/SpecMemory.v
theories/MemoryProofs.v
theories/PropMemory.v
theories/FilesRace.v
theories/SpecRace.v
theories/RaceProofs.v
theories/PropRace.v
theories/ServerMessages.v
theories/SpecServerMessages.v
theories/ServerMessagesProofs.v
theories/PropServerMessages.v
theories/TransportMessages.v
theories/SpecTransportMessages.v
theories/PropTransportMessages.v
theories/ProcCtrl.v
theories/PropPrivileges.v
theories/KeyLog.v
theories/PropKeyLog.v
theories/StartMessages.v
theories/SpecStart.v
theories/PropStart.v
theories/PropDelivery.v
theories/PropAnswered.v
theories/SpecReasons.v
theories/ReasonsProofs.v
theories/PropReasons.v
theories/PropPadding.v
theories/SpecPrivate.v
theories/PrivateProofs.v
theories/PropPrivate.v
theories/SpecDebug.v
theories/DebugMessages.v
theories/DebugProofs.v
theories/DebugFrames.v
theories/PropDebug.v
theories/FilesDebug.v
theories/SpecDebugFiles.v
theories/FilesDebugProofs.v
theories/PropDebugFiles.v
theories/TransportTrace.v
theories/SpecTransportTrace.v
theories/TransportTraceProofs.v
theories/PropTransportTrace.v
theories/HpackTrace.v
theories/SpecHpackTrace.v
theories/HpackTraceProofs.v
theories/PropHpackTrace.v
theories/ConnTrace.v
theories/SpecConnTrace.v
theories/ConnTraceProofs.v
theories/PropConnTrace.v
theories/ServerTrace.v
theories/SpecServerTrace.v
theories/ServerTraceProofs.v
theories/PropServerTrace.v
theories/ServerEnd.v
theories/ServerEndProofs.v
theories/PropServerEnd.v
theories/EndingProofs.v
theories/PropEnding.v
theories/ListenerTrace.v
theories/SpecListenerTrace.v
theories/ListenerTraceProofs.v
theories/PropListenerTrace.v
