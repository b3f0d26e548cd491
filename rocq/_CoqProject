-Q theories Verif
theories/GoBase.v
theories/Bitset.v
theories/BitsetSpec.v
theories/BitsetProofs.v
theories/BitsetProofs2.v
theories/BitsetProofs3.v
theories/BitsetHeap.v
theories/PropBitset.v
theories/Sha1.v
theories/Hash.v
theories/HashProofs.v
theories/PropHash.v
theories/Messages.v
theories/MessagesSpec.v
theories/MessagesProofs.v
theories/PropMessages.v
theories/Chunk.v
theories/ChunkSpec.v
theories/ChunkProofs.v
theories/PropChunk.v
theories/Path.v
theories/PathProofs.v
theories/PathLoop.v
theories/Utf8.v
theories/Utf8Proofs.v
theories/Json.v
theories/JsonProofs.v
theories/JsonProofs2.v
theories/JsonProofs3.v
theories/GrammarSpec.v
theories/GrammarProofs.v
theories/GrammarProofs2.v
theories/IO.v
theories/Catalogue.v
theories/CatalogueSpec.v
theories/CatalogueProofs.v
theories/CatalogueInv.v
theories/CatalogueInv2.v
theories/CatalogueHist.v
theories/CatalogueReach.v
theories/CatalogueFaults.v
theories/CatalogueDownload.v
theories/Clean.v
theories/CleanSpec.v
theories/CleanProofs.v
theories/CrashSpec.v
theories/CatalogueCrash.v
theories/Wedge.v
theories/CatalogueMore.v
theories/CatalogueCases.v
theories/PropCatalogue.v
theories/Transfer.v
theories/TransferSpec.v
theories/TransferProofs.v
theories/SenderProofs.v
theories/RecvProofs.v
theories/SysProofs.v
theories/PropTransfer.v
theories/Server.v
theories/ServerSpec.v
theories/ServerProofs.v
theories/ServerProofs2.v
theories/ServerProofs3.v
theories/ServerProofs4.v
theories/ServerProofs5.v
theories/ServerProofs6.v
theories/Discover.v
theories/DiscoverSpec.v
theories/DiscoverProofs.v
theories/Uploads.v
theories/UploadsSpec.v
theories/UploadsProofs.v
theories/ServerCases.v
theories/ServerProofs7.v
theories/PropServer.v
theories/Download.v
theories/DownloadSpec.v
theories/DownloadProofs.v
theories/DownloadProofs2.v
theories/DownloadProofs3.v
theories/DownloadProofs4.v
theories/PropDownload.v
theories/NetIP.v
theories/NetIPSpec.v
theories/NetIPProofs.v
theories/Cli.v
theories/CliSpec.v
theories/CliProofs.v
theories/CliProofs2.v
theories/CliProofs3.v
theories/CliProofs4.v
theories/CliProofs5.v
theories/PropCli.v
theories/SwarmSpec.v
theories/SwarmProofs.v
theories/SwarmProofs2.v
theories/OfferSpec.v
theories/OfferProofs.v
theories/PropSwarm.v
theories/PeerSpec.v
theories/PeerProofs.v
theories/PeerProofs2.v
theories/PropPeer.v
theories/PeersSpec.v
theories/PeersProofs.v
theories/PeersProofs2.v
theories/PropPeers.v
theories/Reader.v
theories/ReaderSpec.v
theories/ReaderProofs.v
theories/PropReader.v
theories/Fill.v
theories/FillSpec.v
theories/FillProofs.v
theories/FillProofs2.v
theories/FillProofs3.v
theories/PropFill.v
theories/OpenSpec.v
theories/OpenProofs.v
theories/FirstStart.v
theories/PropOpen.v
theories/PropFirst.v
theories/BitsetPrint.v
theories/PropPrint.v
theories/Locks.v
theories/LocksSpec.v
theories/LocksProofs.v
theories/PropLocks.v
theories/Daemon.v
theories/DaemonSpec.v
theories/DaemonProofs.v
theories/DaemonProofs2.v
theories/PropDaemon.v
theories/LossySpec.v
theories/LossyProofs.v
theories/PropLossy.v
theories/StartSpec.v
theories/StartProofs.v
theories/PropStart.v
theories/ResumeSpec.v
theories/ResumeProofs.v
theories/PropResume.v
theories/ForgetSpec.v
theories/ForgetProofs.v
theories/PropForget.v
theories/ManySpec.v
theories/ManyProofs.v
theories/ManyProofs2.v
theories/PropMany.v
theories/Workers.v
theories/WorkersSpec.v
theories/WorkersProofs.v
theories/WorkersProofs2.v
theories/PropWorkers.v
theories/ChangedSpec.v
theories/ChangedProofs.v
theories/PropChanged.v
theories/Dial.v
theories/DialSpec.v
theories/DialProofs.v
theories/PropDial.v
theories/EndProofs.v
theories/EndCases.v
theories/PropEnd.v
theories/BusySpec.v
theories/BusyProofs.v
theories/PropBusy.v
theories/StaySpec.v
theories/StayProofs.v
theories/PropStay.v
theories/GapProofs.v
theories/KillProofs.v
theories/PropGaps.v
theories/BootSpec.v
theories/BootProofs.v
theories/PropBoot.v
theories/SweepSpec.v
theories/SweepProofs.v
theories/PropSweep.v
theories/StopSpec.v
theories/StopProofs.v
theories/PropStop.v
theories/TouchSpec.v
theories/TouchProofs.v
theories/PropTouch.v
