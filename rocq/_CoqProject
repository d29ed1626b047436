-Q theories Verif
theories/Prelude.v
theories/Ser4.v
theories/Messages.v
theories/SpecPdu.v
theories/Tac.v
theories/BitFacts.v
theories/BuildFacts.v
theories/ParseReqFacts.v
theories/ParseRespFacts.v
theories/CodecLemmas.v
theories/PropsCodec.v
theories/Mbap.v
theories/SpecMbap.v
theories/MbapFacts.v
theories/MbapLemmas.v
theories/BufferSize.v
theories/PropsMbap.v
theories/Database.v
theories/SpecDb.v
theories/DatabaseFacts.v
theories/DbLemmas.v
theories/Locking.v
theories/SpecLin.v
theories/LockFacts.v
theories/PropsDb.v
theories/Server.v
theories/SpecServer.v
theories/FrameFacts.v
theories/ServerFacts.v
theories/ServerLemmas.v
theories/PropsServer.v
theories/Client.v
theories/SpecClient.v
theories/ClientFacts.v
theories/ClientLemmas.v
theories/ClientTx.v
theories/ClientShutdown.v
theories/ClientResponses.v
theories/ClientOutcomes.v
theories/ClientCases.v
theories/PropsClient.v
theories/Scheduled.v
theories/SpecScheduled.v
theories/ScheduledFacts.v
theories/ScheduledLemmas.v
theories/PropsScheduled.v
theories/Ids.v
theories/SpecIds.v
theories/IdsFacts.v
theories/Expected.v
theories/SpecExpected.v
theories/ExpectedFacts.v
theories/PropsValues.v
theories/Listener.v
theories/SpecListener.v
theories/ListenerFacts.v
theories/ListenerOnce.v
theories/ListenerLemmas.v
theories/ListenerCases.v
theories/PropsListener.v
theories/AsyncWrite.v
theories/ClientConn.v
theories/ServerConn.v
theories/SpecConn.v
theories/WriteFacts.v
theories/ConnFacts.v
theories/ConnRecover.v
theories/ConnStream.v
theories/ServerConnFacts.v
theories/ServerConnMore.v
theories/ConnCases.v
theories/PropsConn.v
theories/SessionCall.v
theories/System.v
theories/SpecSystem.v
theories/SystemServe.v
theories/SystemClient.v
theories/SystemFacts.v
theories/SystemSteps.v
theories/SystemLemmas.v
theories/SystemCases.v
theories/PropsSystem.v
theories/ClientView.v
theories/Session.v
theories/SpecSession.v
theories/SessionLift.v
theories/SessionFacts.v
theories/SessionPolls.v
theories/SessionStop.v
theories/SessionInv.v
theories/SessionLemmas.v
theories/SessionDown.v
theories/SessionMeant.v
theories/SessionCalls.v
theories/SessionCases.v
theories/PropsSession.v
theories/ClientTcp.v
theories/SpecClientTcp.v
theories/TcpFacts.v
theories/TcpWire.v
theories/TcpOrder.v
theories/TcpLemmas.v
theories/TcpBehaviour.v
theories/TcpShutdown.v
theories/TcpAnswer.v
theories/TcpNetwork.v
theories/TcpResults.v
theories/TcpCases.v
theories/PropsClientTcp.v
theories/ServerTcp.v
theories/SpecServerTcp.v
theories/ServerTcpTrack.v
theories/ServerTcpLink.v
theories/ServerTcpTurns.v
theories/ServerTcpSteps.v
theories/ServerTcpFacts.v
theories/ServerTcpLemmas.v
theories/ServerTcpTheorems.v
theories/ServerTcpTotal.v
theories/ServerTcpTalk.v
theories/ServerTcpStarts.v
theories/ServerTcpCases.v
theories/PropsServerTcp.v
theories/Manager.v
theories/SpecManager.v
theories/ManagerFacts.v
theories/ManagerShutdown.v
theories/ManagerTheorems.v
theories/Config.v
theories/ConfigFacts.v
theories/PropsManager.v
theories/Lifetime.v
theories/SpecLifetime.v
theories/LifetimeFacts.v
theories/LifetimeCases.v
theories/PropsLifetime.v
theories/Threads.v
theories/SpecThreads.v
theories/ThreadsFacts.v
theories/ThreadsRaces.v
theories/ThreadsCases.v
theories/PropsThreads.v
theories/World.v
theories/SpecWorld.v
theories/NetFacts.v
theories/WorldConn.v
theories/WorldSim.v
theories/WorldServe.v
theories/WorldOther.v
theories/WorldLink.v
theories/WorldLemmas.v
theories/WorldCases.v
theories/WorldParts.v
theories/WorldRest.v
theories/PropsWorld.v
theories/ConformCodec.v
theories/ConformParts.v
theories/ExampleServer.v
theories/SpecExample.v
theories/ExampleFacts.v
theories/ExampleLemmas.v
theories/ExampleCases.v
theories/PropsExample.v
theories/ExampleClient.v
theories/SpecExampleClient.v
theories/ExampleClientFacts.v
theories/ExampleClientLemmas.v
theories/ExampleClientTheorems.v
theories/ExampleClientServed.v
theories/ExampleClientCases.v
theories/PropsExampleClient.v
theories/ServerLifetime.v
theories/SpecServerLifetime.v
theories/ServerLifetimeFacts.v
theories/ServerLifetimeEnd.v
theories/ServerLifetimeCases.v
theories/PropsServerLifetime.v
theories/SpecClientTime.v
theories/ClientTime.v
theories/ClientTimeRun.v
theories/ClientTimeCases.v
theories/PropsClientTime.v
theories/SpecEnd.v
theories/TcpEnd.v
theories/TcpEndCases.v
theories/PropsEnd.v
theories/SpecServerEnd.v
theories/ServerEnd.v
theories/ServerEndCases.v
theories/PropsServerEnd.v
theories/SystemWrap.v
theories/WorldWrap.v
theories/PropsWrap.v
theories/Full.v
theories/SpecFull.v
theories/FullSim.v
theories/SessionTold.v
theories/FullParts.v
theories/FullLemmas.v
theories/FullUndefined.v
theories/FullCases.v
theories/PropsFull.v
theories/SpecOrder.v
theories/OrderFacts.v
theories/WorldOrder.v
theories/FullOrder.v
theories/OrderCases.v
theories/PropsOrder.v
theories/SpecFullEnd.v
theories/FullEnd.v
theories/FullEndRun.v
theories/FullEndCases.v
theories/PropsFullEnd.v
theories/SpecSessionTime.v
theories/SessionTime.v
theories/SessionTimed.v
theories/SessionTimeRun.v
theories/SessionTimeCases.v
theories/PropsSessionTime.v
theories/SpecManagerEnd.v
theories/ManagerEnd.v
theories/ManagerEndCases.v
theories/PropsManagerEnd.v
theories/Texts.v
theories/SpecTexts.v
theories/TextsFacts.v
theories/PropsTexts.v
theories/Logs.v
theories/SpecLogs.v
theories/LogsFacts.v
theories/LogsEvents.v
theories/LogsCases.v
theories/PropsLogs.v
theories/ConnLogs.v
theories/SpecConnLogs.v
theories/ConnLogsFacts.v
theories/ConnLogsCases.v
theories/PropsConnLogs.v
theories/SpecBound.v
theories/BoundFacts.v
theories/BoundTcpFacts.v
theories/BoundCases.v
theories/PropsBound.v
theories/SpecAlone.v
theories/AloneFacts.v
theories/AloneCases.v
theories/PropsAlone.v
theories/SpecChunks.v
theories/ChunksFacts.v
theories/ChunksCases.v
theories/PropsChunks.v
theories/SpecClientChunks.v
theories/ClientChunksFacts.v
theories/ClientChunksCases.v
theories/PropsClientChunks.v
theories/SpecStray.v
theories/StrayFacts.v
theories/StrayServer.v
theories/StrayCases.v
theories/StrayServerCases.v
theories/PropsStray.v
theories/PropsStrayServer.v
theories/SpecRepeat.v
theories/RepeatFacts.v
theories/RepeatParser.v
theories/RepeatServer.v
theories/RepeatCases.v
theories/PropsRepeat.v
theories/LogTexts.v
theories/SpecLogTexts.v
theories/LogTextsFacts.v
theories/LogTextsCases.v
theories/PropsLogTexts.v
theories/SpecOrigin.v
theories/OriginFacts.v
theories/OriginFull.v
theories/OriginCases.v
theories/PropsOrigin.v
theories/TimerFacts.v
theories/PropsTimers.v
theories/SpecReads.v
theories/ReadFacts.v
theories/ReadCases.v
theories/PropsReads.v
theories/SpecAttempts.v
theories/AttemptFacts.v
theories/AttemptCases.v
theories/PropsAttempts.v
theories/DemandFacts.v
theories/PropsDemand.v
theories/AgainFacts.v
theories/AgainServer.v
theories/PropsAgain.v
theories/PropsAgainServer.v
theories/ServerReads.v
theories/PropsServerReads.v
theories/SpecHeld.v
theories/HeldFacts.v
theories/PropsHeld.v
theories/CallFacts.v
theories/CallServer.v
theories/PropsCalls.v
theories/PropsCallsServer.v
theories/UserTimers.v
theories/SpecUserTimers.v
theories/UserTimersFacts.v
theories/PropsUserTimers.v
