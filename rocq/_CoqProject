-Q theories Verif
theories/Base.v
theories/BaseLemmas.v
theories/Afi.v
theories/AfiProofs.v
theories/Spec.v
theories/SpecLemmas.v
theories/PropAfi.v
theories/SpecEid.v
theories/PropEid.v
theories/Records.v
theories/Control.v
theories/SpecRec.v
theories/RecordsProofs.v
theories/ControlProofs.v
theories/PropControl.v
theories/PropLayout.v
theories/Checksum.v
theories/ChecksumProofs.v
theories/Packet.v
theories/PacketProofs.v
theories/PacketStack.v
theories/SpecPkt.v
theories/PropPacket.v
theories/PropUdp.v
theories/PropPacket2.v
theories/PropPacket3.v
theories/Auth.v
theories/SpecAuth.v
theories/PropAuth.v
theories/Registry.v
theories/PropRegistry.v
theories/Tree.v
theories/SpecTree.v
theories/TreeProofs.v
theories/PropTree.v
theories/PropTree2.v
theories/Dict.v
theories/MapServer.v
theories/SpecMs.v
theories/PropMs.v
theories/PropMs2.v
theories/Net.v
theories/SpecNet.v
theories/PropNet.v
theories/Ddt.v
theories/SpecDdt.v
theories/PropDdt.v
theories/PropDdt2.v
theories/Etr.v
theories/SpecEtr.v
theories/PropEtr.v
theories/PropEtr2.v

theories/Daemon.v
theories/SpecDaemon.v
theories/PropDaemon.v
theories/PropDaemon2.v
theories/PropDaemon3.v
theories/Exchange.v
theories/SpecExch.v
theories/PropExch.v
theories/SpecAccept.v
theories/PropAccept.v
theories/SpecRoute.v
theories/PropRoute.v
theories/SpecLife.v
theories/PropLife.v
theories/SpecSend.v
theories/PropSend.v
theories/PropLoop.v
theories/PropLoop2.v
theories/Conf.v
theories/SpecConf.v
theories/PropConf.v
theories/PropPacket4.v
theories/SpecDelim.v
theories/PropDelim.v
theories/Main.v
theories/SpecMain.v
theories/PropMain.v
theories/Sched.v
theories/SpecSched.v
theories/PropSched.v
theories/Geo.v
theories/SpecGeo.v
theories/PropGeo.v
theories/AutoReg.v
theories/SpecAReg.v
theories/PropAReg.v
theories/InfoReq.v
theories/PropInfo.v
theories/PropLoop3.v
theories/Tools.v
theories/PropTools.v
theories/PropAReg2.v
theories/Sockets.v
theories/SpecSockets.v
theories/PropSockets.v
theories/RootFile.v
theories/SpecRoot.v
theories/PropRoot.v
theories/Running.v
theories/PropRunning.v
theories/RootConf.v
theories/PropRootConf.v
theories/LocSet.v
theories/PropLocSet.v
theories/DdtNodes.v
theories/PropDdtNodes.v
theories/PropSched2.v
theories/PropStay.v
theories/PropServe.v
theories/Sha.v
theories/PropSha.v
theories/Conform.v
theories/IpText.v
theories/SpecText.v
theories/PropText.v
theories/Startup.v
theories/SpecStartup.v
theories/PropStartup.v
theories/PropObjects.v
theories/PropReplay.v
theories/SpecCanon.v
theories/PropCanon.v
theories/SpecHonest.v
theories/PropHonest.v
theories/PropConfirm.v
theories/PropContainer.v
theories/ThreadLoop.v
theories/PropThreads.v
theories/Paths.v
theories/PropPaths.v
theories/Witness.v
theories/PropAmpl.v
theories/PropIso.v
theories/PropRsv.v
theories/Masks.v
theories/PropKinds.v
theories/LcafText.v
theories/SpecLcafText.v
theories/PropLcafText.v
theories/Race.v
theories/SpecRace.v
theories/PropRace.v
theories/RaceInfo.v
theories/SpecRaceInfo.v
theories/PropRaceInfo.v
theories/Signals.v
theories/SpecSignals.v
theories/PropSignals.v
theories/Collect.v
theories/SpecCollect.v
theories/PropCollect.v
theories/RebindRace.v
theories/SpecRebindRace.v
theories/PropRebindRace.v
theories/PropLcafShape.v
theories/SpecCut.v
theories/PropCut.v
theories/PropCutInfo.v
theories/SpecMoves.v
theories/PropMoves.v
theories/Pass.v
theories/SpecPass.v
theories/PropPass.v
theories/SpecBehind.v
theories/PropBehind.v
theories/SpecDepth.v
theories/PropDepth.v
theories/PropFits.v
theories/SpecTwice.v
theories/PropTwice.v
theories/SpecReorder.v
theories/PropReorder.v
theories/SpecOthers.v
theories/PropOthers.v
theories/PropRestart.v
theories/SpecPasses.v
theories/PropPasses.v
theories/SpecGrowth.v
theories/PropGrowth.v
theories/SpecOrder.v
theories/PropOrder.v
theories/PropQuiet.v
theories/SpecGroup.v
theories/PropGroup.v
