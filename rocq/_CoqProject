-Q theories Verif
theories/GoBase.v
theories/GoBaseFacts.v
theories/Layout.v
theories/Tcp.v
theories/NetIP.v
theories/Inetdiag.v
theories/Netlink.v
theories/SpecNetlink.v
theories/NetlinkFacts.v
theories/AddrFacts.v
theories/RecordFacts.v
theories/Samples.v
theories/P_Netlink.v
theories/SpecConfig.v
theories/ConfigFacts.v
theories/IPTextFacts.v
theories/IPTextSound.v
theories/P_Config.v
theories/SpecCompare.v
theories/CompareFacts.v
theories/P_Compare.v
theories/SetCounters.v
theories/SpecCounters.v
theories/SetCountersFacts.v
theories/P_SetCounters.v
theories/SpecAddrText.v
theories/AddrTextFacts.v
theories/P_Text.v
theories/Cache.v
theories/SpecCache.v
theories/CacheFacts.v
theories/P_Cache.v
theories/GoTime.v
theories/GoDate.v
theories/GoDateFacts.v
theories/TimeFacts.v
theories/Saver.v
theories/SpecSaver.v
theories/SpecTotals.v
theories/SaverSteps.v
theories/SaverFiles.v
theories/SaverJobs.v
theories/SaverBlocks.v
theories/SaverRuns.v
theories/SaverCounts.v
theories/SaverHistory.v
theories/SaverTotals.v
theories/SaverRotation.v
theories/P_Saver.v
theories/SpecHeld.v
theories/SaverHeld.v
theories/P_Held.v
theories/P_Totals.v
theories/System.v
theories/SpecSystem.v
theories/SystemViews.v
theories/SystemJobs.v
theories/SystemInv.v
theories/SystemFiles.v
theories/SystemRefine.v
theories/SystemEnd.v
theories/SystemHidden.v
theories/P_System.v
theories/Snapshot.v
theories/SpecSnapshot.v
theories/SnapshotFacts.v
theories/P_Snapshot.v
theories/Reader.v
theories/SpecReader.v
theories/ReaderFacts.v
theories/P_Reader.v
theories/Collector.v
theories/SpecCollector.v
theories/CollectorFacts.v
theories/P_Collector.v
theories/EventName.v
theories/P_Names.v
theories/EventServer.v
theories/SpecEvents.v
theories/EventFacts.v
theories/P_Events.v
theories/Zstd.v
theories/P_Zstd.v
theories/Base64.v
theories/Base64Facts.v
theories/Rfc3339.v
theories/Rfc3339Facts.v
theories/Json.v
theories/SpecJson.v
theories/JsonFacts.v
theories/JsonPrefix.v
theories/Archive.v
theories/SpecArchive.v
theories/ArchiveFacts.v
theories/SaverTimes.v
theories/SpecRecovered.v
theories/LineFacts.v
theories/RecoveredFacts.v
theories/LineLength.v
theories/SmallFiles.v
theories/P_Archive.v
theories/EventClient.v
theories/SpecShuffle.v
theories/Shuffle.v
theories/SpecClient.v
theories/LengthFacts.v
theories/ClientFacts.v
theories/ClientServer.v
theories/P_Client.v
theories/ZstdReader.v
theories/P_ZstdReader.v
theories/MainConfig.v
theories/P_Main.v
theories/SpecPipeline.v
theories/PipelineFacts.v
theories/P_Pipeline.v
theories/ExampleClient.v
theories/P_Example.v
theories/SpecProgram.v
theories/Program.v
theories/ProgramFacts.v
theories/ProgramEnd.v
theories/SaverReports.v
theories/ProgramRuns.v
theories/ProgramEvents.v
theories/P_Program.v
theories/SpecStall.v
theories/Stall.v
theories/P_Stall.v
theories/CsvTool.v
theories/SpecCsv.v
theories/CsvFacts.v
theories/P_Csv.v
theories/Metrics.v
theories/SpecMetrics.v
theories/MetricsFacts.v
theories/P_Metrics.v
theories/Ticker.v
theories/TickerFacts.v
theories/P_Ticker.v
theories/SaverSizes.v
theories/CacheStats.v
theories/CacheStatsFacts.v
theories/P_CacheStats.v
theories/Startup.v
theories/SpecStartup.v
theories/StartupFacts.v
theories/P_Startup.v
theories/SpecGrammar.v
theories/GrammarFacts.v
theories/SpellFacts.v
theories/SpecDecode.v
theories/StampFacts.v
theories/DecodeFacts.v
theories/P_Texts.v
theories/SpecRaces.v
theories/RaceFacts.v
theories/P_Races.v
theories/Prom.v
theories/SpecProm.v
theories/FloatFacts.v
theories/PromFacts.v
theories/PromSaver.v
theories/PromSaverFacts.v
theories/P_Prom.v
theories/Faults.v
theories/SpecFaults.v
theories/FaultFacts.v
theories/P_Faults.v
theories/EventLock.v
theories/SpecLock.v
theories/LockFacts.v
theories/LockSim.v
theories/P_Lock.v
theories/Flags.v
theories/SpecFlags.v
theories/FlagNumbers.v
theories/FlagFacts.v
theories/FlagMain.v
theories/P_Flags.v
theories/Anonymizer.v
theories/SpecPrivacy.v
theories/PrivacyFacts.v
theories/P_Privacy.v
theories/SpecPath.v
theories/PathFacts.v
theories/P_Paths.v
theories/Disk.v
theories/SpecDisk.v
theories/DiskFacts.v
theories/P_Disk.v
theories/Whole.v
theories/WholeFacts.v
theories/SpecWhole.v
theories/P_Whole.v
theories/CsvTable.v
theories/SpecTable.v
theories/TableFacts.v
theories/P_Table.v
theories/SpecTool.v
theories/ToolFacts.v
theories/FileNames.v
theories/P_Tool.v
theories/SpecLine.v
theories/WrittenFacts.v
theories/LineRead.v
theories/LineFiles.v
theories/P_Line.v
theories/LineSocket.v
theories/P_LineSocket.v
theories/P_LineDisk.v
theories/SpecHistory.v
theories/FilesInOrder.v
theories/P_History.v
theories/CatchUp.v
theories/P_CatchUp.v
theories/SpecRest.v
theories/SaverCatchUp.v
theories/P_SaverCatchUp.v
theories/ProgramRest.v
theories/P_ProgramRest.v
theories/P_RestDisk.v
theories/ClosedFiles.v
theories/P_ClosedFiles.v
