-Q theories Verif
theories/Beacon.v
theories/BeaconMain.v
theories/BuildFacts.v
theories/Chars.v
theories/CharsMain.v
theories/Cli.v
theories/CliFacts.v
theories/CliFacts2.v
theories/CliMain.v
theories/Client.v
theories/ClientFacts.v
theories/ClientMain.v
theories/Clock.v
theories/ClockFacts.v
theories/ClockMain.v
theories/Config.v
theories/ConfigFacts.v
theories/ConfigMain.v
theories/Crash.v
theories/CrashMain.v
theories/Cursor.v
theories/CursorMain.v
theories/Daemon.v
theories/DaemonMain.v
theories/Data.v
theories/DataMain.v
theories/Dirent.v
theories/DirentMain.v
theories/DiskUse.v
theories/DiskUseMain.v
theories/Fileio.v
theories/FileioFacts.v
theories/FileioMain.v
theories/FlagStrFacts.v
theories/FlagTextFacts.v
theories/FlagTextMain.v
theories/Flags.v
theories/FlagsFacts.v
theories/FlagsMain.v
theories/Focus.v
theories/FocusFacts.v
theories/FocusMain.v
theories/FrameFacts.v
theories/FrameText.v
theories/FrameTextFacts.v
theories/FrameTextMain.v
theories/GoBase.v
theories/GoFacts.v
theories/Handles.v
theories/HandlesFacts.v
theories/HandlesMain.v
theories/HeadMain.v
theories/Holes.v
theories/HolesAlias.v
theories/HolesAliasFacts.v
theories/HolesFacts.v
theories/HolesMain.v
theories/Itoa.v
theories/Json.v
theories/JsonFacts.v
theories/JsonMain.v
theories/Listen.v
theories/ListenMain.v
theories/Listing.v
theories/ListingFacts.v
theories/ListingMain.v
theories/Locks.v
theories/LocksFacts.v
theories/LocksMain.v
theories/Memory.v
theories/MemoryFacts.v
theories/MemoryMain.v
theories/Metadata.v
theories/MetadataMain.v
theories/NamesMain.v
theories/Node.v
theories/NodeMain.v
theories/NumbersFacts.v
theories/NumbersMain.v
theories/Outbound.v
theories/OutboundMain.v
theories/Part.v
theories/PartFacts.v
theories/PartMain.v
theories/Partial.v
theories/PartialMain.v
theories/Peers.v
theories/PeersMain.v
theories/Power.v
theories/PowerMain.v
theories/PropsBeacon.v
theories/PropsChars.v
theories/PropsCli.v
theories/PropsClient.v
theories/PropsClock.v
theories/PropsConfig.v
theories/PropsCrash.v
theories/PropsCursor.v
theories/PropsDaemon.v
theories/PropsData.v
theories/PropsDirent.v
theories/PropsDiskUse.v
theories/PropsFileio.v
theories/PropsFlagText.v
theories/PropsFlags.v
theories/PropsFocus.v
theories/PropsFrameText.v
theories/PropsHandles.v
theories/PropsHead.v
theories/PropsHoles.v
theories/PropsJson.v
theories/PropsListen.v
theories/PropsListing.v
theories/PropsLocks.v
theories/PropsMemory.v
theories/PropsMetadata.v
theories/PropsNames.v
theories/PropsNode.v
theories/PropsNumbers.v
theories/PropsOutbound.v
theories/PropsPart.v
theories/PropsPartial.v
theories/PropsPeers.v
theories/PropsPower.v
theories/PropsReason.v
theories/PropsReflect.v
theories/PropsRequest.v
theories/PropsRun.v
theories/PropsSarnet.v
theories/PropsScreen.v
theories/PropsSend.v
theories/PropsShared.v
theories/PropsShow.v
theories/PropsSlots.v
theories/PropsSockets.v
theories/PropsSpan.v
theories/PropsStartup.v
theories/PropsStatus.v
theories/PropsTable.v
theories/PropsTell.v
theories/PropsTicks.v
theories/PropsTime.v
theories/PropsTorn.v
theories/PropsTranlist.v
theories/PropsTrans.v
theories/PropsTransfer.v
theories/PropsTransmit.v
theories/ReadFacts.v
theories/ReadShape.v
theories/ReasonMain.v
theories/Reflect.v
theories/ReflectFacts.v
theories/ReflectMain.v
theories/Request.v
theories/RequestMain.v
theories/RunFacts.v
theories/RunMain.v
theories/SarFacts.v
theories/Sarnet.v
theories/SarnetMain.v
theories/Screen.v
theories/ScreenFacts.v
theories/ScreenMain.v
theories/SendMain.v
theories/Shared.v
theories/SharedCopy.v
theories/SharedFacts.v
theories/SharedMain.v
theories/Shipped.v
theories/ShippedText.v
theories/ShowMain.v
theories/Slots.v
theories/SlotsMain.v
theories/Sockets.v
theories/SocketsMain.v
theories/Span.v
theories/SpanMain.v
theories/SpecBeacon.v
theories/SpecCli.v
theories/SpecClient.v
theories/SpecClock.v
theories/SpecConfig.v
theories/SpecCrash.v
theories/SpecCursor.v
theories/SpecDaemon.v
theories/SpecDirent.v
theories/SpecFileio.v
theories/SpecFlagText.v
theories/SpecFlags.v
theories/SpecFocus.v
theories/SpecFrameText.v
theories/SpecFrames.v
theories/SpecHandles.v
theories/SpecHead.v
theories/SpecHoles.v
theories/SpecJson.v
theories/SpecListen.v
theories/SpecListing.v
theories/SpecLocks.v
theories/SpecMemory.v
theories/SpecMetadata.v
theories/SpecNode.v
theories/SpecOutbound.v
theories/SpecPartial.v
theories/SpecPeers.v
theories/SpecPower.v
theories/SpecReason.v
theories/SpecReflect.v
theories/SpecRequest.v
theories/SpecRun.v
theories/SpecSarnet.v
theories/SpecScreen.v
theories/SpecSend.v
theories/SpecShared.v
theories/SpecShow.v
theories/SpecSlots.v
theories/SpecSockets.v
theories/SpecSpan.v
theories/SpecStartup.v
theories/SpecStatus.v
theories/SpecTable.v
theories/SpecTell.v
theories/SpecTicks.v
theories/SpecTime.v
theories/SpecTorn.v
theories/SpecTranlist.v
theories/SpecTransfer.v
theories/SpecTransmit.v
theories/SpecWire.v
theories/SpecWords.v
theories/Startup.v
theories/StartupMain.v
theories/Status.v
theories/StatusMain.v
theories/Table.v
theories/TableFacts.v
theories/TableMain.v
theories/TellMain.v
theories/TextFacts.v
theories/Ticks.v
theories/TicksMain.v
theories/TimeMain.v
theories/Timestamp.v
theories/Torn.v
theories/TornFacts.v
theories/TornMain.v
theories/Tranlist.v
theories/TranlistMain.v
theories/Trans.v
theories/TransMain.v
theories/Transfer.v
theories/TransferMain.v
theories/Transmit.v
theories/TransmitMain.v
theories/Words.v
theories/WordsFacts.v
