-Q theories Verif
theories/Base.v
theories/BaseFacts.v
theories/NumFmt.v
theories/NumSpec.v
theories/NumFacts.v
theories/NumFmtProofs.v
theories/PropsNum.v
theories/LoggerState.v
theories/Filter.v
theories/FilterSpec.v
theories/FilterProofs.v
theories/PropsFilter.v
theories/ConfigApi.v
theories/ConfigSpec.v
theories/ConfigProofs.v
theories/PropsConfig.v
theories/DateFmt.v
theories/DateSpec.v
theories/CalendarFacts.v
theories/DateProofs.v
theories/PropsDate.v
theories/DblFmt.v
theories/DblSpec.v
theories/DblProofs.v
theories/PropsDbl.v
theories/Stream.v
theories/StreamSpec.v
theories/StreamProofs.v
theories/RenderProofs.v
theories/PrefixProofs.v
theories/StreamUnique.v
theories/Moves.v
theories/MovesProofs.v
theories/PropsStream.v
theories/Ring.v
theories/RingSpec.v
theories/RingInv.v
theories/RingProofs.v
theories/RingLive.v
theories/RingRun.v
theories/RingQuiet.v
theories/RingStop.v
theories/RingPrio.v
theories/PropsRing.v
theories/Recover.v
theories/RecoverSpec.v
theories/RecoverProofs.v
theories/RecoverRing.v
theories/PropsRecover.v
theories/PropsLap.v
theories/FileName.v
theories/FileNameSpec.v
theories/FileNameProofs.v
theories/FileDev.v
theories/FileDevSpec.v
theories/RollProofs.v
theories/FileDevProofs.v
theories/FileRunProofs.v
theories/FilePathProofs.v
theories/PropsFile.v
theories/ParseVal.v
theories/Lexer.v
theories/ParseCfg.v
theories/ParseSpec.v
theories/TextSpec.v
theories/LexProofs.v
theories/ParseSafe.v
theories/ParseInv.v
theories/LexLine.v
theories/ValSpec.v
theories/ValProofs.v
theories/ParseRefute.v
theories/ParseDet.v
theories/ParseMono.v
theories/PropsParse.v
theories/SubstSpec.v
theories/SubstProofs.v
theories/SubstSelf.v
theories/ParseStuck.v
theories/Samples.v
theories/PropsSubst.v
theories/CfgSpec.v
theories/CfgVals.v
theories/CfgProofs.v
theories/PropsCfg.v
theories/Load.v
theories/LoadSpec.v
theories/LoadProofs.v
theories/PropsLoad.v
theories/Stop.v
theories/StopSpec.v
theories/StopProofs.v
theories/PropsStop.v
theories/World.v
theories/WorldSpec.v
theories/WorldProofs.v
theories/WorldUdp.v
theories/WorldSeq.v
theories/PropsWorld.v
theories/HookSpec.v
theories/HookProofs.v
theories/PushProofs.v
theories/PropsHook.v
theories/FastStart.v
theories/FastSpec.v
theories/FastProofs.v
theories/RouteSpec.v
theories/RouteProofs.v
theories/PropsRoute.v
theories/Sys.v
theories/SysSpec.v
theories/SysProofs.v
theories/PropsSys.v
theories/Bulk.v
theories/BulkSpec.v
theories/BulkProofs.v
theories/PropsBulk.v
theories/Disk.v
theories/DiskSpec.v
theories/DiskProofs.v
theories/DiskSeq.v
theories/PropsDisk.v
theories/MixSpec.v
theories/MixProofs.v
theories/PropsMix.v
theories/LinSpec.v
theories/LinProofs.v
theories/PropsLin.v
theories/Mem.v
theories/MemSpec.v
theories/MemProofs.v
theories/PropsMem.v
theories/Report.v
theories/ReportSpec.v
theories/ReportProofs.v
theories/AcceptSpec.v
theories/AcceptProofs.v
theories/PropsAccept.v
theories/PropsReport.v
theories/RestartSpec.v
theories/RestartProofs.v
theories/PropsRestart.v
theories/Shm.v
theories/ShmSpec.v
theories/ShmProofs.v
theories/PropsShm.v
theories/ShmRace.v
theories/ShmRaceSpec.v
theories/ShmRaceProofs.v
theories/PropsShmRace.v
theories/WeakRing.v
theories/WeakSpec.v
theories/WeakProofs.v
theories/WeakInv.v
theories/WeakOut.v
theories/WeakLaws.v
theories/WeakOne.v
theories/WeakLive.v
theories/PropsWeak.v
theories/DblLibc.v
theories/DblLibcSpec.v
theories/DblLibcProofs.v
theories/DblReadProofs.v
theories/DblOrderProofs.v
theories/PropsDblText.v
theories/DateZone.v
theories/DateZoneSpec.v
theories/DateZoneProofs.v
theories/PropsDateZone.v
theories/Life.v
theories/LifeSpec.v
theories/LifeProofs.v
theories/PropsLife.v
theories/Nest.v
theories/NestProofs.v
theories/PropsNest.v
theories/Cost.v
theories/CostProofs.v
theories/PropsCost.v
theories/Multi.v
theories/MultiProofs.v
theories/PropsMulti.v
theories/ParseLimit.v
theories/PropsLimit.v
theories/Flush.v
theories/FlushProofs.v
theories/PropsFlush.v
theories/Torn.v
theories/TornSpec.v
theories/TornProofs.v
theories/PropsTorn.v
theories/UdpRace.v
theories/UdpRaceSpec.v
theories/UdpRaceProofs.v
theories/PropsUdpRace.v
theories/Socket.v
theories/SocketSpec.v
theories/SocketProofs.v
theories/PropsSocket.v
theories/TornOut.v
theories/TornOutProofs.v
theories/PropsTornOut.v
theories/Adding.v
theories/AddingSpec.v
theories/AddingProofs.v
theories/PropsAdding.v
theories/Durable.v
theories/DurableSpec.v
theories/DurableProofs.v
theories/PropsDurable.v
theories/RollCut.v
theories/RollCutSpec.v
theories/RollCutProofs.v
theories/PropsRollCut.v
theories/RollFail.v
theories/RollFailProofs.v
theories/PropsRollFail.v
theories/RollRace.v
theories/RollRaceSpec.v
theories/RollRaceProofs.v
theories/PropsRollRace.v
theories/SharePath.v
theories/SharePathSpec.v
theories/SharePathProofs.v
theories/PropsSharePath.v
