-Q theories Verif
theories/Base.v
theories/BencodeModel.v
theories/BencodeSpec.v
theories/DecimalProofs.v
theories/BencodeProofs.v
theories/PropsBencode.v
theories/BitfieldModel.v
theories/BitfieldSpec.v
theories/BitfieldProofs.v
theories/PropsBitfield.v
theories/WireModel.v
theories/WireSpec.v
theories/WireProofs.v
theories/PropsWire.v
theories/HandshakeModel.v
theories/HandshakeSpec.v
theories/HandshakeProofs.v
theories/PropsHandshake.v
theories/PathModel.v
theories/LayoutModel.v
theories/LayoutSpec.v
theories/LayoutProofs.v
theories/PieceMapProofs.v
theories/PropsLayout.v
theories/PathSpec.v
theories/PathProofs.v
theories/InfoSpec.v
theories/InfoProofs.v
theories/PropsInfo.v
theories/FsModel.v
theories/FsSpec.v
theories/FsProofs.v
theories/OcatProofs.v
theories/PropsFs.v
theories/SwarmModel.v
theories/SwarmProofs.v
theories/CreateModel.v
theories/CreateSpec.v
theories/CreateProofs.v
theories/CreateNegProofs.v
theories/PropsSwarm.v
theories/DsModel.v
theories/DsSpec.v
theories/DsProofs.v
theories/PropsDs.v
theories/PptModel.v
theories/PptSpec.v
theories/PptProofs.v
theories/PropsPpt.v
theories/UtilsModel.v
theories/UtilsSpec.v
theories/UtilsProofs.v
theories/PropsUtils.v
theories/PeerModel.v
theories/TrackerModel.v
theories/TrackerSpec.v
theories/PeerProofs.v
theories/TrackerProofs.v
theories/AddrSpec.v
theories/AddrProofs.v
theories/PropsTracker.v
theories/RateModel.v
theories/RateSpec.v
theories/RateProofs.v
theories/PropsRate.v
theories/ReadLoopModel.v
theories/ReadLoopSpec.v
theories/ReadLoopProofs.v
theories/PropsReadLoop.v
theories/LoopModel.v
theories/LoopSpec.v
theories/LoopProofs.v
theories/PropsLoop.v
theories/LenientSpec.v
theories/LenientProofs.v
theories/WireStepSpec.v
theories/WireStepProofs.v
theories/PropsLenient.v
theories/SessionModel.v
theories/SessionSpec.v
theories/SessionProofs.v
theories/PropsSession.v
theories/ConcModel.v
theories/ConcSpec.v
theories/ConcProofs.v
theories/PropsConc.v
theories/LifeSpec.v
theories/LifeProofs.v
theories/PropsLife.v
theories/StartModel.v
theories/StartSpec.v
theories/StartProofs.v
theories/PropsStart.v
theories/RunModel.v
theories/RunSpec.v
theories/RunProofs.v
theories/RunStartProofs.v
theories/PropsRun.v
theories/LeechSpec.v
theories/LeechProofs.v
theories/LeechStartProofs.v
theories/PropsLeech.v
theories/RoundSpec.v
theories/RoundProofs.v
theories/PropsRound.v
theories/RlioModel.v
theories/RlioSpec.v
theories/RlioProofs.v
theories/PropsRlio.v
theories/LockModel.v
theories/LockSpec.v
theories/LockProofs.v
theories/PropsLock.v
theories/FlagModel.v
theories/FlagSpec.v
theories/FlagProofs.v
theories/PropsFlag.v
theories/PrintModel.v
theories/PrintSpec.v
theories/PrintProofs.v
theories/PropsPrint.v
theories/TimeModel.v
theories/TimeSpec.v
theories/TimeProofs.v
theories/PropsTime.v
theories/NetModel.v
theories/NetSpec.v
theories/NetProofs.v
theories/PropsNet.v
theories/SafeSpec.v
theories/SafeProofs.v
theories/PropsSafe.v
theories/ProcModel.v
theories/ProcSpec.v
theories/ProcProofs.v
theories/ProcLiveProofs.v
theories/ProcSockProofs.v
theories/PropsProc.v
theories/PropsSock.v
theories/PhsModel.v
theories/PhsSpec.v
theories/PhsProofs.v
theories/PropsPhs.v
theories/LoadSpec.v
theories/LoadProofs.v
theories/PropsLoad.v
theories/WholeSpec.v
theories/NewcomerProofs.v
theories/WholeProofs.v
theories/PropsWhole.v
theories/IpModel.v
theories/IpSpec.v
theories/IpProofs.v
theories/Ip6Proofs.v
theories/IpListProofs.v
theories/PropsIp.v
theories/Sha1.v
theories/Conform.v
theories/ConformPpt.v
theories/ConformTorrent.v
theories/HostileSpec.v
theories/HostileProofs.v
theories/HostileStart.v
theories/PropsHostile.v
theories/PropsWait.v
theories/UrlModel.v
theories/UrlSpec.v
theories/UrlProofs.v
theories/UrlNetProofs.v
theories/PropsUrl.v
theories/RaceSpec.v
theories/RaceModel.v
theories/RaceProofs.v
theories/RaceInvProofs.v
theories/RaceMemProofs.v
theories/RaceConnProofs.v
theories/RaceTopProofs.v
theories/RaceFoundProofs.v
theories/RaceDoneSpec.v
theories/RaceDoneProofs.v
theories/PropsRace.v
theories/TreeModel.v
theories/TreeSpec.v
theories/TreeSimProofs.v
theories/TreeProofs.v
theories/TreeTopProofs.v
theories/PropsTree.v
theories/SeenModel.v
theories/SeenSpec.v
theories/SeenProofs.v
theories/PropsSeen.v
theories/SpinModel.v
theories/SpinSpec.v
theories/SpinProofs.v
theories/PropsSpin.v
theories/BootModel.v
theories/BootSpec.v
theories/BootProofs.v
theories/PropsBoot.v
theories/LimitSpec.v
theories/LimitProofs.v
theories/PropsLimit.v
theories/MemModel.v
theories/MemSpec.v
theories/MemProofs.v
theories/PropsMem.v
theories/LogModel.v
theories/LogSpec.v
theories/LogProofs.v
theories/LogRunProofs.v
theories/LogTextProofs.v
theories/PropsLog.v
theories/DiagModel.v
theories/DiagSpec.v
theories/DiagProofs.v
theories/PropsDiag.v
theories/ShaModel.v
theories/ShaSpec.v
theories/ShaProofs.v
theories/Sha1Proofs.v
theories/ShaTwinProofs.v
theories/PropsSha.v
theories/SayModel.v
theories/SaySpec.v
theories/SayProofs.v
theories/SayToldProofs.v
theories/SayTextProofs.v
theories/PropsSay.v
theories/UsageModel.v
theories/UsageSpec.v
theories/UsageProofs.v
theories/PropsUsage.v
theories/TellModel.v
theories/TellSpec.v
theories/TellProofs.v
theories/PropsTell.v
theories/HelpModel.v
theories/HelpSpec.v
theories/HelpProofs.v
theories/PropsHelp.v
theories/LinkModel.v
theories/LinkSpec.v
theories/LinkProofs.v
theories/PropsLink.v
theories/LinkStartModel.v
theories/LinkStartSpec.v
theories/LinkStartProofs.v
theories/PropsLinkStart.v
theories/HardSpec.v
theories/HardProofs.v
theories/HardStartProofs.v
theories/PropsHard.v
theories/RenameModel.v
theories/RenameProofs.v
theories/PropsRename.v
