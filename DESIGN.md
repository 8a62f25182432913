# Formal model of m-lab/tcp-info in Rocq (Coq 8.16.1)

`rocq/theories/` holds (1) an executable Gallina model of the Go code, (2) small separate
specification files (`Spec*.v`), (3) proofs (`*Facts.v`, `Saver*.v`, `System*.v`, ...), and
(4) `P_*.v` files which contain only the property theorems (closed by `exact`), cases that meet
their hypotheses, witnesses (`*_refuted`) and `Print Assumptions`.

`properties.jsonl` and `MANIFEST.json` are written by `tools/gen_properties.py` and
`tools/gen_manifest.py`, the table at the end of this file by `tools/gen_assumptions.py`.
`seeded/LOG.jsonl` records the wrong programs against which the theorems were tested.
Entries whose edit starts with "automatic edit" were generated: there the build was stopped at
the first lemma that failed (`first_failure`), and `theorems_failed` lists the theorems whose
proofs use that lemma. In the other entries failed proofs were replaced by holes, and
`theorems_failed` lists the theorems that depend on a hole. In both cases a listed theorem
has lost its proof; that no other proof exists was not established.

## Modelling decisions (apply everywhere)

* Bytes are `Coq.Init.Byte.byte`, byte strings are `list byte`. Fixed-width unsigned
  arithmetic is `N`/`Z` with the wrap written out (`mod 2^64`, ...).
* A Go slice whose capacity matters is `gslice` = visible bytes + spare capacity bytes
  (`s[len:cap]`); `nil` is `None`.
* Results: `Ret v` / `Fail err` / `Panic` are separate, so a crash is never confused with an error.
* Loops are structural recursion or recursion on fuel with a distinct `Diverge` result which is
  proved unreachable.
* `time.Now`, `os.MkdirAll`, `os.Create`/`zstd.NewWriter` results and Go's random map-iteration
  order are oracles (functions of the call number) over which theorems quantify. Times are `Z`
  nanoseconds since the Unix epoch.
* Goroutines/channels: small-step relations; theorems quantify over all schedules.
* In-place anonymization of records shared with the cache is modelled explicitly (records carry an
  allocation number; anonymizing number k changes every alias).
* External libraries: `anonymize.IPAnonymizer` is an arbitrary length-preserving function;
  `uuid.FromCookie` is `prefix ++ "_" ++ %016X`; `encoding/json`, `encoding/base64`,
  `bufio.Scanner`, `time` (RFC 3339, calendar), `net.IP` and `strconv.ParseInt` are modelled
  concretely from the Go standard library's documented behaviour (their source is not in the
  sandbox); the zstd program is the identity on the byte stream, or fails; Unix socket files and
  `os.Remove` as in Linux and package net (Startup.v).

## Which code is modelled

| Go code | model | left out |
|---------|-------|----------|
| `netlink/archival-record.go`, `netlink/netlink_linux.go`, `netlink/netlink.go` | Netlink.v, Reader.v, Archive.v, SetCounters.v (SetBytesReceived, SetBytesSent), Saver.v (blocks) | log lines; `netlink_darwin.go`, which has the same two functions over constants with the same values |
| `inetdiag/structs.go`, `inetdiag/inetdiag.go` | Inetdiag.v, Layout.v, NetIP.v | `fmt` printing of `SockID` beyond its fields |
| `tcp/tcpinfo.go` | Tcp.v, Layout.v; csv tags in CsvTable.v | - |
| `snapshot/snapshot.go` | Snapshot.v; metrics in Metrics.v | log lines |
| `cache/cache.go` | Cache.v (its CacheSizeHistogram metric is an action of Saver.v) | - |
| `saver/saver.go` | Saver.v (sequential), System.v (goroutines), Faults.v (failing writers), Archive.v (lines), CacheStats.v (LogCacheStats) | log lines |
| `collector/collector_linux.go`, `collector/socket-monitor_linux.go` | Collector.v; timing in Ticker.v; metrics in Metrics.v | log lines, observed syscall durations; `collector_darwin.go`, whose Run is a stub that returns (0, 0) |
| `eventsocket/server.go`, `client.go`, `tcpevent_string.go` | EventServer.v, EventClient.v, EventName.v, Startup.v (Listen), EventLock.v (mutex, wait group) | the flag; in EventServer.v addClient and removeClient are single steps, which C69 justifies |
| `zstd/zstd.go` | Zstd.v (NewWriter), ZstdReader.v (NewReader), Disk.v (os.Create and the output on disk), Whole.v (with the whole process) | the compression format |
| `main.go` | Program.v: main with the collector, the channel to the saver, the saver with its marshallers and the event server, as one transition system; MainConfig.v: the exclude flags; Startup.v: main up to the collector; Flags.v: the command line and the environment; Anonymizer.v: the anonymizers it can choose | profiling, Prometheus server, contents of the trace, texts of usage messages |
| `cmd/example-eventsocket-client` | ExampleClient.v, on top of EventClient.v | the texts of log lines |
| `cmd/csvtool` | CsvTool.v, over Reader.v, Snapshot.v and ZstdReader.v; CsvTable.v (tags, columns, cells, text) | the sources of gocsv and encoding/csv are not available: in C56 gocsv is an arbitrary function of the snapshots, in C74 it follows its documented rules (CsvTable.v), which agree with the positions and cells of cmd/csvtool/main_test.go |
| `metrics/metrics.go` | Metrics.v (the vectors and their labels), Saver.v (those of the saver), Prom.v (names, labels, buckets, registration), PromSaver.v (which histogram observes what) | help texts; the observed times of SyscallTimeHistogram and PollingHistogram |

External code as modelled: Base64.v, Json.v, GoTime.v, GoDate.v, Rfc3339.v, NetIP.v (Go standard library), Prom.v (Prometheus client; float64 is the binary64 of Floats.SpecFloat),
GoBase.v (slices, integers, results). Go struct layout on linux/amd64: Layout.v.

## Per property

| id | model | specification | proofs |
|----|-------|---------------|--------|
| C01-C04 | Netlink.v | SpecNetlink.v: relational encoding of rtattr lists | NetlinkFacts.v, RecordFacts.v: induction on input length, both directions |
| C05,C06 | NetIP.v, Netlink.v | SpecNetlink.v: address classes | AddrFacts.v, RecordFacts.v: case analysis on bytes |
| C07,C08 | Netlink.v, NetIP.v | SpecConfig.v: decimal values, address grammars | ConfigFacts.v, IPTextFacts.v, IPTextSound.v: induction over the text, parser sound and complete |
| C09-C11 | Netlink.v | SpecCompare.v: "significant content" | CompareFacts.v: case analysis following the code |
| C12-C14 | Netlink.v, Inetdiag.v | positional byte specs | RecordFacts.v |
| C15,C16 | Cache.v | SpecCache.v: history of operations | CacheFacts.v: refinement, induction over operations |
| C17-C24,C27,C31,C48 | Saver.v | SpecSaver.v: traces of events, tasks, rounds | Saver*.v: invariants over every run for every oracle |
| C25,C26 | Saver.v | SpecTotals.v | SaverTotals.v |
| C28-C30 | System.v | SpecSystem.v | System*.v: simulation with the sequential saver; progress and measure |
| C32-C35 | Snapshot.v, Layout.v, Tcp.v | SpecSnapshot.v: kernel offset table | SnapshotFacts.v |
| C36,C37 | Reader.v | SpecReader.v: lines, frames | ReaderFacts.v |
| C38 | Base64.v, Json.v, Rfc3339.v, Archive.v | SpecArchive.v, SpecJson.v | Base64Facts.v, JsonFacts.v, Rfc3339Facts.v, ArchiveFacts.v: printer/parser round trip; Shuffle.v (spec SpecShuffle.v): reading a struct commutes over members with different names |
| C39 | the above with System.v | SpecRecovered.v | RecoveredFacts.v, LengthFacts.v, LineLength.v, SmallFiles.v |
| C40-C42 | Collector.v | SpecCollector.v | CollectorFacts.v: induction over reply batches, iterations |
| C43,C44 | EventServer.v | SpecEvents.v | EventFacts.v: invariants over all schedules |
| C45 | EventClient.v | SpecClient.v, SpecShuffle.v | ClientFacts.v, ClientServer.v (composition with C43), Shuffle.v |
| C46 | Tcp.v, EventName.v | (injectivity) | P_Names.v |
| C47 | Zstd.v | (over the observable log) | P_Zstd.v |
| C49 | NetIP.v, Inetdiag.v | SpecAddrText.v: RFC 5952 | AddrTextFacts.v |
| C50 | ZstdReader.v | (over the observable log) | P_ZstdReader.v: invariant over all schedules, measure |
| C51 | MainConfig.v, Netlink.v, System.v | P_Main.v: what the flags name | P_Main.v: induction over the flag values; composition with C29 |
| C52 | Saver.v, System.v, Archive.v, Reader.v, Snapshot.v, Zstd.v | SpecPipeline.v | PipelineFacts.v: composition of C03, C28, C32, C33, C35, C39, C47, C50 |
| C53 | ExampleClient.v | (over the log lines) | P_Example.v |
| C54 | Program.v over System.v, EventServer.v, EventClient.v | SpecProgram.v: `reports`, `truthful`, `about` | ProgramFacts.v: the process refines System.v and EventServer.v, and what is submitted is what the saver has executed (invariants over all steps); SaverReports.v: origin of every value; ProgramEvents.v composes with C17, C28, C45 |
| C55 | Program.v | SpecProgram.v: `collected`, `answers` | ProgramEnd.v: progress, and termination by a well-founded measure over main, the channel and System.v; ProgramRuns.v: computable schedules for the examples |
| C56 | CsvTool.v over Reader.v, Snapshot.v, ZstdReader.v | SpecCsv.v: `says` | CsvFacts.v: characterization of LoadAll over any source; composition with C50, C52 |
| C57 | CsvTool.v (MarshalCSV) | SpecCsv.v: `numeral`, `hex_numeral` | CsvFacts.v; composition with C49 |
| C58 | Program.v with EventServer.v | SpecStall.v: `unread`, `stalled` | Stall.v: invariants over the executions in which no write to the client returns |
| C59 | Metrics.v over Collector.v, Snapshot.v, EventServer.v, Program.v | SpecMetrics.v: `charged`, `tallied`, `iteration` | MetricsFacts.v: the functions with metrics erase to those without; inductions over the replies and the attributes; composition with C54 |
| C60 | Ticker.v with the environment of Collector.v | arithmetic on the times | TickerFacts.v: invariants over all steps of a timed state machine |
| C61 | Saver.v | SpecHeld.v: `held`, `connections` | SaverHeld.v: from the invariants of C18-C20 and C25 |
| C62 | CacheStats.v over Saver.v | the counters at the moments of the loads | CacheStatsFacts.v: every increment climbs from one sensible state to the next |
| C63 | Startup.v | SpecStartup.v; what is at a path, who is reached | StartupFacts.v: invariants over histories of happenings at the path |
| C64 | Json.v, Base64.v, Rfc3339.v, Archive.v, EventClient.v (decoders) | SpecGrammar.v: grammar of JSON, string literals; SpecDecode.v: base64, times (of RFC 3339, and the wider ones that time.Parse of Go 1.20 takes), what an object says about a field | GrammarFacts.v, SpellFacts.v, StampFacts.v: soundness and completeness of each parser; DecodeFacts.v: one induction for all structs |
| C65 | System.v (the transition system; `view` in st_job lets the saver see any addresses in records that a marshaller may be changing) | SpecRaces.v: whose task, writer and record something is; whose step a step is | RaceFacts.v: a marshaller's step as a local change and one effect; diamond for each pair of goroutines from ownership of writers and records (SystemInv.v, SystemFiles.v) |
| C66 | SetCounters.v | SpecCounters.v: all but eight bytes stays as it is | SetCountersFacts.v: bytes before, at and after the store; with the theorems of C09 and C12 |
| C67 | Prom.v (float64 by Floats.SpecFloat; histograms and registration by the documentation of client_golang), PromSaver.v | SpecProm.v: the rational number of a float, how many observations are at most a bound | FloatFacts.v: rounding is exact with 53 significant bits, order of floats is the order of their values; PromFacts.v: induction over the observations; PromSaverFacts.v: labels and reports of the saver and the collector; `_refuted`: the sum beyond 2^56 bits |
| C68 | Faults.v: System.v with writers whose compressor takes everything, only the first n bytes, or n bytes and then nothing | SpecFaults.v: what arrives on the disk, who is inside a call that does not return | FaultFacts.v: simulation by System.v after cutting the files of failed compressors (both ways if none hangs), so that C28 and C30 carry over; progress unless held up; a file of a hanging compressor only grows; `_refuted`: other connections |
| C69 | EventLock.v: server.go with Lock, Unlock, Add, Done and each access to the map as separate steps | SpecLock.v: who is at the map, who waits for the mutex, what can be seen | LockFacts.v: invariants over all schedules (who holds the mutex, what the counter counts); LockSim.v: simulation of and by EventServer.v, a measure that decreases after the cancellation; `_refuted`: Wait and notifyClients |
| C70 | Flags.v: the part of Go's flag package, flagx.ArgsFromEnv, flagx.StringArray and anonymize.Method that main.go:83-84 and the example client run through, with the flags of the libraries as a parameter | SpecFlags.v: how a command line is written (a relation between words and occurrences), what number a literal means, where commas split | FlagNumbers.v: inductions over digits and underscores; FlagFacts.v, FlagMain.v: inductions over the words, over the flags and over the occurrences; composition with C51 |
| C71 | Anonymizer.v: anonymize.New(None) and anonymize.New(Netblock) of m-lab/go, from their documentation (main.go:142); the saver, the marshallers and the whole program as before | SpecPrivacy.v: what two addresses, messages and blocks have in common (same network; the same but for hosts), and the decisions with the addresses veiled | PrivacyFacts.v: every function of the saver, run on two inputs that are alike, keeps two states alike (a relational invariant, by induction over messages and blocks); composition with C28, C55 and C70 |
| C21 (names) | Saver.v, GoTime.v, GoDate.v (the calendar in uint64 arithmetic, as in Go) | SpecPath.v: the calendar as one day after another, numerals, the path letter by letter | PathFacts.v: induction over days in both directions, over digits; GoDateFacts.v |
| C72 | Disk.v: the files by path, os.Create, and what compressors put out at any time, beside the saver and the marshallers of System.v (zstd/zstd.go:64-88, saver/saver.go:106-158) | SpecDisk.v: the paths created, the connections opened and the times read, off the saver's log; SpecPath.v | DiskFacts.v: invariants over all schedules (each step keeps the files of other writers; a file on disk is the output of its sole writer); induction over the saver's steps (every file's connection was opened before); PathFacts.v: a path tells its parts |
| C73 | Whole.v: the whole process of Program.v beside the files on disk of Disk.v (main.go:82-153, zstd/zstd.go:50-88); flags, filter, anonymizer, JSON and reader as in C70, C51, C71, C38 and C52 | SpecWhole.v: the words of the exclusion flags, what is asked of machine and kernel; SpecPipeline.v (shows, received, made_of), SpecSaver.v (reference, no_significant_change) | WholeFacts.v: a run with a disk is a run of Disk.v on the blocks sent (by induction over the steps) and conversely every run of the process has a disk; a record to be saved is queued and belongs to a created file; then C55, C72, C52, C24 and C70 are put together |
| C74 | CsvTable.v: the csv tags of the structs, the columns and cells that gocsv makes of them, and the writer of encoding/csv (cmd/csvtool/main.go:28-30, snapshot/snapshot.go:225-269, tcp/tcpinfo.go:58-136, inetdiag/structs.go:129-136, 243-257, 334-381); both readings of omitempty | SpecTable.v: the grammar of RFC 4180, the expected columns and what their cells say, the kernel's structures of SpecSnapshot.v | TableFacts.v: the grammar is unambiguous (induction over cells and lines); structural induction over the columns of a structure; inversion of numerals, times and addresses |
| C75 | Json.v, Base64.v, Rfc3339.v, Archive.v and the writing half of EventClient.v (saver/saver.go:79-80 and 144-154, netlink/archival-record.go:29-50, eventsocket/server.go:34-39 and 105), System.v for the files | SpecLine.v: base64 as the bits of the bytes in groups of six, RFC 3339 over the calendar of SpecPath.v, what string literals spell (SpecGrammar.v), the members in order; uniqueness of the base64 text both ways; LineRead.v: the other direction, numerals and times have one text, so each such line is read as its record; C75_files from the file contents of C39; C75_socket (LineSocket.v) from what a client receives (C52); C75_disk and C75_disk_new (P_LineDisk.v, FileNames.v) for the files on disk, from C72_final and saved_queued |
| C76 | Whole.v (tcp-info and its disk), CsvTool.v with ZstdReader.v (csvtool and its zstd process), CsvTable.v (the table); main.go:82-153, cmd/csvtool/main.go:28-61 | SpecTool.v: the row that tells of a message: name of the column, offset and width in struct inet_diag_msg, type of the attribute; SpecTable.v (CSV, kernel's structures), SpecWhole.v | ToolFacts.v: a row that shows a snapshot which shows the message tells of the message (hiding the addresses leaves the other bytes alone); then C72_final, C74_saver_files (the zones may differ), C56_output and C56_converted; FileNames.v: name, metadata and records of a file are of one connection (C19, C21); completeness from saved_queued as in C73 |
| C77 | Saver.v (the log of the saver), Whole.v (the disk), CsvTool.v; saver/saver.go:120-156, 248-298 and 432-496, main.go:82-153 | SpecHistory.v: the records to be saved over all polls (from C24's to_save), the files with a connection's UUID in the order of creation; lines and rows as in C75 and C76; files that appeared or changed are found by comparing the directory before and after | FilesInOrder.v: invariant over the elementary steps of SaverSteps.v: the connection's records in its files are its records queued, its open file is the last one, numbers count the files; P_History.v joins this with the lines (P_LineDisk.v) and tables (P_Tool.v) of each file |
| C78 | EventServer.v; eventsocket/server.go:60-166 | caught_up (P_CatchUp.v) over the observable log of SpecEvents.v | CatchUp.v: a measure of the work left (events in the channel times registered clients) that every step of the server decreases, and invariants tying failed writes to the goroutines they start; P_CatchUp.v: at measure zero everything has been delivered; any beginning of a log is the log of an earlier state |
| C79 | System.v, Program.v; saver/saver.go:65-92, 331-496; main.go:147-153 | SpecRest.v (alone, at_rest, received), meanwhile and settled (ProgramRest.v), contents and final_file (SpecSystem.v) | SaverCatchUp.v: an invariant relating the jobs left to the polls received, termination (SystemEnd.v), the files of drained marshallers (files_complete), and that Close adds no line; ProgramRest.v: the process seen as the saver with the blocks sent (ProgramFacts.full), room made by the event server, no endless work without another block (ProgramEnd.v); P_RestDisk.v: with the compressors (Whole.v), and `C79_disk_refuted` |
| C80 | Whole.v (the process and its disk), Program.v, System.v, Disk.v; saver/saver.go:65-92 and 120-156, zstd/zstd.go:64-88, main.go:82-153 | contents (SpecSystem.v), usual, told_to_exclude and shows (SpecWhole.v, SpecPipeline.v) | ClosedFiles.v: induction over the moves of the process (a new file gets a new writer, nothing is written to a closed one); a closed file is that of a finished run which the saver can still reach (SystemEnd.v), hence complete and loadable by C30 and C52; on disk by unique names (DiskFacts.v) |

## Findings

Where the code violates the natural property, the exact condition is proved and a `_refuted`
theorem gives a concrete witness.

1. `MakeArchivalRecord` crashes on a message whose last attribute lacks its alignment padding
   (`C02_never_crashes_refuted`).
2. Local exclusion misses IPv6 addresses whose last 12 bytes are zero, e.g. `fe80::`
   (`C06_local_ipv6_all_refuted`); their text is that of an IPv4 address (`C49_ipv6_refuted`).
3. `AddSrcPort` accepts no port above 32767 (`C07_every_port_refuted`).
4. `AddDstIP` of an IPv4 address does not exclude connections to it over an AF_INET6 socket
   (`C08_mapped_socket_refuted`).
5. `Compare` panics if TCP_INFO has fewer than 168 bytes of backing store, and looks at bytes outside
   the attribute if it is shorter but its buffer is not (`C11_never_panics_refuted`,
   `C11_outside_bytes_refuted`); the saver dies of it (`C48_short_info_refuted`).
6. `HasDiagInfo` does not mean that there is TCP_INFO (`C12_has_diag_info_means_info_refuted`), so
   bytes vanish from, or are counted twice in, the throughput totals (`C25_*_refuted`).
7. A cookie repeated within a round loses a record of the cache (`C16_conservation_refuted`).
8. Cookie 0 and failed file creation break the alternation of Open and Close events
   (`C17_*_refuted`); failed creation also loses changes (`C23_failed_creation_refuted`).
9. A connection missing from one dump and then back has its file truncated
   (`C21_truncation_refuted`); a failed dump is sent as "all closed" (C41).
10. Rotation times are counted from the Open, so files may be seconds apart
    (`C22_files_ten_minutes_apart_refuted`).
11. Decode panics on an empty congestion attribute (C34); bits of Observed are lost above 32 slots
    and repeat above 256 (`C33_unbounded_refuted`); only one byte of CLASS_ID is kept
    (`C33_class_id_refuted`).
12. Readers end silently at a line of 65536 bytes or more (`C36_no_loss_refuted`), and a raw stream
    cut after a header looks complete (`C37_detects_truncation_refuted`). The saver can write such
    a line (`C39_large_message_refuted`).
13. The saver ignores errors of `json.Marshal`: a time outside years 0..9999 gives an empty line
    (`C39_any_time_refuted`).
14. A netlink error message is returned as an ordinary message (`C40_kernel_error_refuted`).
15. Event server: a client may see a gap, events are lost at cancellation, and an event submitted
    after cancellation crashes the process (`C43_gap_refuted`, `C44_*_refuted`).
16. Event client: closing the connection on purpose in the middle of a line ends the process
    (`C45_cancel_refuted`); a line `null` gives an Open call with nothing in it
    (`C45_filled_refuted`).
17. A failing compressor is not reported: Write and Close return nil (`C47_data_refuted`).
18. Closing a `zstd.NewReader` early ends the whole program (`C50_early_close`).
19. One message with an empty congestion attribute makes the whole file of its connection
    unreadable for `snapshot.LoadAll`: it panics (`C52_crash_iff`, `C52_every_file_refuted`).
20. The example client drops open events that arrive while it is processing one
    (`C53_all_processed_refuted`; documented in the code).
21. main does not wait for the event server: with a finite -reps it can return before the last
    events, among them all Close events of the final shutdown, are delivered (`C54_exit_refuted`).
22. If ctx is cancelled while the saver works (in main.go itself this only happens when main
    returns), the event server closes its channel and the saver's next event panics with
    "send on closed channel"; files stay incomplete (`C55_cancel_refuted`).
23. csvtool succeeds with a partial CSV when its source has a line of 64 KiB or more
    (`C56_long_line_refuted`) or when reading fails between two lines (`C56_read_error_refuted`).
24. Writes to event clients have no deadline: one client that stops reading blocks the event server
    with its mutex held, 100 events later the saver, and with it the whole collection
    (`C58_collection_stops`, `C58_collection_goes_on_refuted`).
25. Metrics: tcpinfo_flow_events_total, described as "by event type", never counts a close
    (`C59_close_refuted`); attributes of type INET_DIAG_MD5SIG are skipped without being counted
    (`C59_skipped_refuted`); the connection count of a dump includes a refusal by the kernel, and
    messages that are dropped because a later read fails (`C59_connections_refuted`).
26. The saver leaks: an entry of Connections when a file could not be created, an entry of ClosingStats
    when TCP_INFO comes back (`C61_failed_creation_refuted`, `C61_closing_refuted`).
27. LogCacheStats races with the saver (the code says "TODO fix race"): the number of unchanged records it
    prints can be negative (`C62_negative_refuted`).
28. An event client is told that a connection is gone before the last records of its file are written
    and the file is closed (`C54_file_refuted`).
29. Listen deletes whatever file has the name of the event socket (`C63_file_refuted`); a second instance
    with the same name cuts off the first (`C63_older_refuted`), and when the first closes its listener the
    second cannot be reached any more (`C63_newer_refuted`).
30. Neither Write nor Close has a time limit: one zstd process that hangs keeps other connections' files
    incomplete, can stop the saver, and keeps the program from ending (`C68_hang_is_local_refuted`,
    `C68_hang_forever`).
31. The sums of the rate histograms are wrong beyond 2^56 bits (`C67_sum_refuted`).
32. notifyClients calls servingWG.Add(1) in its own goroutine (server.go:98), after `go s.notifyClients`. If
    the context is cancelled at once, servingWG.Wait (used in server_test.go:98) can return before
    notifyClients has begun, and the counter then rises from zero again; the same holds for removeClient
    (`C69_wait_for_all_refuted`, `C69_counter_stays_refuted`). Nothing is written to clients after that
    (`C69_wait`).
33. main.go:84 ignores the error of ArgsFromEnv (rtx.Must would not), and flagx stops at nothing: a variable
    with a bad value is skipped or, for REPS, leaves 0. With REPS=ten the program runs for ever, and with
    ANONYMIZE_IP=Netblock it saves whole addresses (`C70_bad_variable_refuted`, `C70_misspelt_refuted`). On the
    command line the same values end the program (`C70_goes_on`). Words after the first that is not a flag are
    ignored, so `-trace true -anonymize.ip=netblock` anonymizes nothing (`C70_every_word_refuted`).
34. -anonymize.ip=netblock is about the files only: the event socket sends whole addresses to its clients
    (`C71_events_refuted`). The exclusion of a destination is decided on the whole address, before anonymization, so
    with -exclude-dstip the files can tell hosts of one network apart (`C71_exclusion_refuted`). Nothing else in the
    files does (`C71_main`).
35. The name of a file is made of the day, the boot, the cookie and the sequence number, and os.Create empties a file
    that exists. A connection that is missing from one poll starts
    again with sequence number 0: on the same day its records from before are lost (`C72_lost_refuted`), and if the
    marshaller has not closed the old file by then, two zstd processes write to the same file and the result is the
    output of neither (`C72_mixed_refuted`). When tcp-info is restarted, the files of the same day of all connections
    that live on are emptied (`C72_restart_refuted`). Otherwise nothing on disk is lost (`C72_final`, `C72_next_run`).
36. Killed processes lose data: what has been written to a compressor but not put out by it is in no file
    (C73_killed_refuted). main has no handler for signals, so this is what a plain SIGTERM does.
37. Two csv tags are wrong. tcp/tcpinfo.go:85 gives LastAckRecv the tag of LastDataRecv, so csvtool prints two
    columns TCP.LastDataRecv and none for TCP.LastAckRecv; a reader that finds columns by name and keeps the last
    takes the time since the last acknowledgement for that since the last data. inetdiag/structs.go:338 calls
    Sndbuf "SKMemInfo.Sndbug" (C74_names_refuted). All other columns have their own names (C74_names).
38. Times that are not those of RFC 3339 are read. Time.UnmarshalJSON of Go 1.20 (the Dockerfile's version) tries
    RFC 3339 first but falls back on time.Parse, which takes an hour of one digit, a comma before the fraction, and
    offsets up to 99:99 (C64_strict_refuted). Everything of RFC 3339 is read as the instant it stands for
    (C64_rfc3339). tcp-info itself writes nothing else (C75_record).
39. A file that is still open may be behind on disk, even empty, although all polls have been handled: nothing makes
    the compressor put out what it was given before Close (C79_disk_refuted). What has been written to the compressor
    is current (C79_program_files).

## Trusted base

* Coq 8.16.1's kernel, including `vm_compute` (used for concrete cases and finite tables).
* The reading of the Go code recorded in the comment above each definition, and the oracles and
  library behaviour listed above. The model is not extracted from or tested against the Go code:
  the sandbox cannot build it. The source of the dependencies is not in the sandbox either: what the model says
  about Go's flag, strconv, encoding/json, net and time packages and about m-lab/go's flagx and anonymize is from
  their documentation and from memory.
* No axioms. `Print Assumptions` says "Closed under the global context" for every property theorem
  (table below). std++ is used for finite maps; loading it and `ssreflect` brings in Coq's own
  `ssrunder` module-type parameters, on which no theorem depends.

## Print Assumptions

| property | file | theorem | listed |
|---|---|---|---|
| C01 | P_Netlink | C01_parse_route_attr_exact | Closed under the global context |
| C01 | P_Netlink | C01_parse_route_attr_einval | Closed under the global context |
| C02 | P_Netlink | C02_make_archival_record_crash | Closed under the global context |
| C02 | P_Netlink | C02_make_archival_record_terminates | Closed under the global context |
| C02 | P_Netlink | C02_never_crashes_refuted | Closed under the global context |
| C03 | P_Netlink | C03_record_contents | Closed under the global context |
| C03 | P_Netlink | C03_well_formed_accepted | Closed under the global context |
| C04 | P_Netlink | C04_rejections | Closed under the global context |
| C05 | P_Netlink | C05_exclusion_exact | Closed under the global context |
| C06 | P_Netlink | C06_local_ipv4 | Closed under the global context |
| C06 | P_Netlink | C06_local_ipv6 | Closed under the global context |
| C06 | P_Netlink | C06_local_each | Closed under the global context |
| C06 | P_Netlink | C06_local_ipv6_all_refuted | Closed under the global context |
| C07 | P_Config | C07_accepts_exactly | Closed under the global context |
| C07 | P_Config | C07_adds_exactly_that_port | Closed under the global context |
| C07 | P_Config | C07_low_port_excluded | Closed under the global context |
| C07 | P_Config | C07_high_ports_rejected | Closed under the global context |
| C07 | P_Config | C07_every_port_refuted | Closed under the global context |
| C08 | P_Config | C08_ipv4_destination | Closed under the global context |
| C08 | P_Config | C08_ipv6_destination | Closed under the global context |
| C08 | P_Config | C08_mapped_destination | Closed under the global context |
| C08 | P_Config | C08_accepts_exactly | Closed under the global context |
| C08 | P_Config | C08_not_an_address | Closed under the global context |
| C08 | P_Config | C08_mapped_socket_refuted | Closed under the global context |
| C09 | P_Compare | C09_no_change_iff | Closed under the global context |
| C09 | P_Compare | C09_verdict | Closed under the global context |
| C09 | P_Compare | C09_first_record | Closed under the global context |
| C09 | P_Compare | C09_header_irrelevant | Closed under the global context |
| C09 | P_Compare | C09_only_significant_content | Closed under the global context |
| C10 | P_Compare | C10_reflexive | Closed under the global context |
| C10 | P_Compare | C10_swap | Closed under the global context |
| C10 | P_Compare | C10_transitive | Closed under the global context |
| C10 | P_Compare | C10_reference | Closed under the global context |
| C11 | P_Compare | C11_panic_iff | Closed under the global context |
| C11 | P_Compare | C11_error_iff | Closed under the global context |
| C11 | P_Compare | C11_never_panics_refuted | Closed under the global context |
| C11 | P_Compare | C11_outside_bytes_refuted | Closed under the global context |
| C12 | P_Compare | C12_get_stats | Closed under the global context |
| C12 | P_Compare | C12_get_stats_otherwise | Closed under the global context |
| C12 | P_Compare | C12_has_diag_info | Closed under the global context |
| C12 | P_Compare | C12_has_diag_info_means_info_refuted | Closed under the global context |
| C13 | P_Compare | C13_socket_identity | Closed under the global context |
| C13 | P_Compare | C13_distinct_cookies | Closed under the global context |
| C14 | P_Compare | C14_anonymize_ipv6 | Closed under the global context |
| C14 | P_Compare | C14_anonymize_ipv4 | Closed under the global context |
| C14 | P_Compare | C14_anonymize_other_family | Closed under the global context |
| C14 | P_Compare | C14_anonymize_short | Closed under the global context |
| C15 | P_Cache | C15_replies | Closed under the global context |
| C15 | P_Cache | C15_refused_record_changes_nothing | Closed under the global context |
| C16 | P_Cache | C16_conservation | Closed under the global context |
| C16 | P_Cache | C16_cycle_count | Closed under the global context |
| C16 | P_Cache | C16_conservation_refuted | Closed under the global context |
| C17 | P_Saver | C17_alternate | Closed under the global context |
| C17 | P_Saver | C17_no_two_opens | Closed under the global context |
| C17 | P_Saver | C17_cookie_zero_refuted | Closed under the global context |
| C17 | P_Saver | C17_failed_creation_refuted | Closed under the global context |
| C18 | P_Saver | C18_block_events | Closed under the global context |
| C19 | P_Saver | C19_one_connection_per_file | Closed under the global context |
| C19 | P_Saver | C19_while_running | Closed under the global context |
| C20 | P_Saver | C20_closed_once | Closed under the global context |
| C21 | P_Paths | C21_calendar | Closed under the global context |
| C21 | P_Paths | C21_go_time | Closed under the global context |
| C21 | P_Paths | C21_path | Closed under the global context |
| C21 | P_Paths | C21_path_tells | Closed under the global context |
| C21 | P_Saver | C21_consecutive | Closed under the global context |
| C21 | P_Saver | C21_names | Closed under the global context |
| C21 | P_Saver | C21_path_injective | Closed under the global context |
| C21 | P_Saver | C21_no_collision | Closed under the global context |
| C21 | P_Saver | C21_truncation_refuted | Closed under the global context |
| C22 | P_Saver | C22_ten_minutes | Closed under the global context |
| C22 | P_Saver | C22_not_before | Closed under the global context |
| C22 | P_Saver | C22_files_ten_minutes_apart_refuted | Closed under the global context |
| C23 | P_Saver | C23_nothing_missed | Closed under the global context |
| C23 | P_Saver | C23_failed_creation_refuted | Closed under the global context |
| C24 | P_Saver | C24_saved_iff_new_or_changed | Closed under the global context |
| C24 | P_Saver | C24_saved_by_verdict | Closed under the global context |
| C24 | P_Saver | C24_nothing_else | Closed under the global context |
| C24 | P_Saver | C24_twice_in_one_block_refuted | Closed under the global context |
| C25 | P_Totals | C25_totals | Closed under the global context |
| C25 | P_Totals | C25_bytes_vanish_refuted | Closed under the global context |
| C25 | P_Totals | C25_counted_twice_refuted | Closed under the global context |
| C26 | P_Totals | C26_reports | Closed under the global context |
| C26 | P_Totals | C26_bounded | Closed under the global context |
| C26 | P_Totals | C26_once_per_second | Closed under the global context |
| C26 | P_Totals | C26_stuck | Closed under the global context |
| C27 | P_Saver | C27_counters | Closed under the global context |
| C27 | P_Saver | C27_same_figure | Closed under the global context |
| C27 | P_Saver | C27_cache_sizes | Closed under the global context |
| C27 | P_Saver | C27_files | Closed under the global context |
| C28 | P_System | C28_same_decisions | Closed under the global context |
| C28 | P_System | C28_prefix | Closed under the global context |
| C28 | P_System | C28_final | Closed under the global context |
| C28 | P_System | C28_schedules_agree | Closed under the global context |
| C29 | P_System | C29_only_anonymized | Closed under the global context |
| C29 | P_System | C29_addresses | Closed under the global context |
| C30 | P_System | C30_terminates | Closed under the global context |
| C30 | P_System | C30_no_deadlock | Closed under the global context |
| C30 | P_System | C30_wait | Closed under the global context |
| C30 | P_System | C30_completes | Closed under the global context |
| C31 | P_Saver | C31_no_trace | Closed under the global context |
| C31 | P_Saver | C31_as_never_received | Closed under the global context |
| C32 | P_Snapshot | C32_fields | Closed under the global context |
| C32 | P_Snapshot | C32_accepts | Closed under the global context |
| C32 | P_Snapshot | C32_rejects | Closed under the global context |
| C33 | P_Snapshot | C33_observed | Closed under the global context |
| C33 | P_Snapshot | C33_not_fully_parsed | Closed under the global context |
| C33 | P_Snapshot | C33_subset | Closed under the global context |
| C33 | P_Snapshot | C33_unbounded_refuted | Closed under the global context |
| C33 | P_Snapshot | C33_class_id_refuted | Closed under the global context |
| C34 | P_Snapshot | C34_panic_iff | Closed under the global context |
| C34 | P_Snapshot | C34_reachable | Closed under the global context |
| C35 | P_Snapshot | C35_success | Closed under the global context |
| C35 | P_Snapshot | C35_error | Closed under the global context |
| C35 | P_Snapshot | C35_panic | Closed under the global context |
| C36 | P_Reader | C36_reading | Closed under the global context |
| C36 | P_Reader | C36_all_lines | Closed under the global context |
| C36 | P_Reader | C36_first_error | Closed under the global context |
| C36 | P_Reader | C36_silent_truncation | Closed under the global context |
| C36 | P_Reader | C36_silent_read_error | Closed under the global context |
| C36 | P_Reader | C36_no_loss_refuted | Closed under the global context |
| C37 | P_Reader | C37_messages | Closed under the global context |
| C37 | P_Reader | C37_records | Closed under the global context |
| C37 | P_Reader | C37_uncut | Closed under the global context |
| C37 | P_Reader | C37_detects_truncation_refuted | Closed under the global context |
| C37 | P_Reader | C37_short_header_refuted | Closed under the global context |
| C38 | P_Archive | C38_round_trip | Closed under the global context |
| C38 | P_Archive | C38_fails | Closed under the global context |
| C38 | P_Archive | C38_injective | Closed under the global context |
| C38 | P_Archive | C38_again | Closed under the global context |
| C38 | P_Archive | C38_cut | Closed under the global context |
| C38 | P_Archive | C38_any_order | Closed under the global context |
| C38 | P_Archive | C38_unknown_members | Closed under the global context |
| C38 | P_Archive | C38_missing_members | Closed under the global context |
| C38 | P_Archive | C38_any_uuid_refuted | Closed under the global context |
| C38 | P_Archive | C38_empty_refuted | Closed under the global context |
| C38 | P_Archive | C38_any_time_refuted | Closed under the global context |
| C39 | P_Archive | C39_files_read_back | Closed under the global context |
| C39 | P_Archive | C39_next | Closed under the global context |
| C39 | P_Archive | C39_unfinished | Closed under the global context |
| C39 | P_Archive | C39_any_time_refuted | Closed under the global context |
| C39 | P_Archive | C39_lines_fit | Closed under the global context |
| C39 | P_Archive | C39_small_messages | Closed under the global context |
| C39 | P_Archive | C39_large_message_refuted | Closed under the global context |
| C40 | P_Collector | C40_result | Closed under the global context |
| C40 | P_Collector | C40_blocks | Closed under the global context |
| C40 | P_Collector | C40_error_iff | Closed under the global context |
| C40 | P_Collector | C40_not_opened | Closed under the global context |
| C40 | P_Collector | C40_kernel_error_refuted | Closed under the global context |
| C41 | P_Collector | C41_sends | Closed under the global context |
| C41 | P_Collector | C41_goes_on | Closed under the global context |
| C41 | P_Collector | C41_returns | Closed under the global context |
| C41 | P_Collector | C41_repetitions | Closed under the global context |
| C41 | P_Collector | C41_negative | Closed under the global context |
| C41 | P_Collector | C41_cancelled | Closed under the global context |
| C41 | P_Collector | C41_log | Closed under the global context |
| C41 | P_Collector | C41_failed_dump | Closed under the global context |
| C41 | P_Collector | C41_no_nil | Closed under the global context |
| C42 | P_Collector | C42_bytes | Closed under the global context |
| C42 | P_Collector | C42_request | Closed under the global context |
| C42 | P_Collector | C42_injective | Closed under the global context |
| C42 | P_Collector | C42_new | Closed under the global context |
| C42 | P_Collector | C42_length | Closed under the global context |
| C43 | P_Events | C43_attempts | Closed under the global context |
| C43 | P_Events | C43_removed | Closed under the global context |
| C43 | P_Events | C43_clients | Closed under the global context |
| C43 | P_Events | C43_received | Closed under the global context |
| C43 | P_Events | C43_segment | Closed under the global context |
| C43 | P_Events | C43_gap_refuted | Closed under the global context |
| C44 | P_Events | C44_order | Closed under the global context |
| C44 | P_Events | C44_closed_once | Closed under the global context |
| C44 | P_Events | C44_stops | Closed under the global context |
| C44 | P_Events | C44_panic | Closed under the global context |
| C44 | P_Events | C44_lost_refuted | Closed under the global context |
| C44 | P_Events | C44_hangup_refuted | Closed under the global context |
| C44 | P_Events | C44_no_panic_refuted | Closed under the global context |
| C45 | P_Client | C45_calls | Closed under the global context |
| C45 | P_Client | C45_total | Closed under the global context |
| C45 | P_Client | C45_no_connection | Closed under the global context |
| C45 | P_Client | C45_event | Closed under the global context |
| C45 | P_Client | C45_delivered | Closed under the global context |
| C45 | P_Client | C45_created | Closed under the global context |
| C45 | P_Client | C45_deleted | Closed under the global context |
| C45 | P_Client | C45_cut | Closed under the global context |
| C45 | P_Client | C45_with_server | Closed under the global context |
| C45 | P_Client | C45_after_failure | Closed under the global context |
| C45 | P_Client | C45_any_order | Closed under the global context |
| C45 | P_Client | C45_unknown_members | Closed under the global context |
| C45 | P_Client | C45_missing_members | Closed under the global context |
| C45 | P_Client | C45_cancel_refuted | Closed under the global context |
| C45 | P_Client | C45_filled_refuted | Closed under the global context |
| C46 | P_Names | C46_known | Closed under the global context |
| C46 | P_Names | C46_constants | Closed under the global context |
| C46 | P_Names | C46_unknown | Closed under the global context |
| C46 | P_Names | C46_state_injective | Closed under the global context |
| C46 | P_Names | C46_events | Closed under the global context |
| C46 | P_Names | C46_event_injective | Closed under the global context |
| C47 | P_Zstd | C47_close | Closed under the global context |
| C47 | P_Zstd | C47_prefix | Closed under the global context |
| C47 | P_Zstd | C47_after_close | Closed under the global context |
| C47 | P_Zstd | C47_close_returns | Closed under the global context |
| C47 | P_Zstd | C47_complete | Closed under the global context |
| C47 | P_Zstd | C47_ahead | Closed under the global context |
| C47 | P_Zstd | C47_write_errors | Closed under the global context |
| C47 | P_Zstd | C47_open | Closed under the global context |
| C47 | P_Zstd | C47_write_returns | Closed under the global context |
| C47 | P_Zstd | C47_data_refuted | Closed under the global context |
| C48 | P_Saver | C48_survives | Closed under the global context |
| C48 | P_Saver | C48_no_marshaller_refuted | Closed under the global context |
| C48 | P_Saver | C48_short_info_refuted | Closed under the global context |
| C49 | P_Text | C49_address_text | Closed under the global context |
| C49 | P_Text | C49_parse_back | Closed under the global context |
| C49 | P_Text | C49_same_text | Closed under the global context |
| C49 | P_Text | C49_ipv6_refuted | Closed under the global context |
| C50 | P_ZstdReader | C50_reads_prefix | Closed under the global context |
| C50 | P_ZstdReader | C50_ahead | Closed under the global context |
| C50 | P_ZstdReader | C50_eof_means_all | Closed under the global context |
| C50 | P_ZstdReader | C50_round_trip | Closed under the global context |
| C50 | P_ZstdReader | C50_all_is_read | Closed under the global context |
| C50 | P_ZstdReader | C50_early_close | Closed under the global context |
| C51 | P_Main | C51_main_excludes | Closed under the global context |
| C51 | P_Main | C51_not_in_files | Closed under the global context |
| C52 | P_Pipeline | C52_snapshots | Closed under the global context |
| C52 | P_Pipeline | C52_through_zstd | Closed under the global context |
| C52 | P_Pipeline | C52_crash_iff | Closed under the global context |
| C52 | P_Pipeline | C52_every_file_refuted | Closed under the global context |
| C53 | P_Example | C53_accounted | Closed under the global context |
| C53 | P_Example | C53_never_waits | Closed under the global context |
| C53 | P_Example | C53_not_skipped | Closed under the global context |
| C53 | P_Example | C53_all_processed_refuted | Closed under the global context |
| C53 | P_Example | C53_cancelled_for_good | Closed under the global context |
| C53 | P_Example | C53_can_end | Closed under the global context |
| C53 | P_Example | C53_shutdown | Closed under the global context |
| C53 | P_Example | C53_keeps_up | Closed under the global context |
| C54 | P_Program | C54_truthful | Closed under the global context |
| C54 | P_Program | C54_handler | Closed under the global context |
| C54 | P_Program | C54_alternate | Closed under the global context |
| C54 | P_Program | C54_no_two_opens | Closed under the global context |
| C54 | P_Program | C54_everything | Closed under the global context |
| C54 | P_Program | C54_exit_refuted | Closed under the global context |
| C54 | P_Program | C54_file_refuted | Closed under the global context |
| C55 | P_Program | C55_blocks | Closed under the global context |
| C55 | P_Program | C55_buffer | Closed under the global context |
| C55 | P_Program | C55_files | Closed under the global context |
| C55 | P_Program | C55_no_crash | Closed under the global context |
| C55 | P_Program | C55_progress | Closed under the global context |
| C55 | P_Program | C55_terminates | Closed under the global context |
| C55 | P_Program | C55_completes | Closed under the global context |
| C55 | P_Program | C55_no_stall | Closed under the global context |
| C55 | P_Program | C55_next_block | Closed under the global context |
| C55 | P_Program | C55_cancel_refuted | Closed under the global context |
| C56 | P_Csv | C56_output | Closed under the global context |
| C56 | P_Csv | C56_nothing_else | Closed under the global context |
| C56 | P_Csv | C56_compressed | Closed under the global context |
| C56 | P_Csv | C56_converted | Closed under the global context |
| C56 | P_Csv | C56_saver_files | Closed under the global context |
| C56 | P_Csv | C56_long_line_refuted | Closed under the global context |
| C56 | P_Csv | C56_read_error_refuted | Closed under the global context |
| C57 | P_Csv | C57_cells | Closed under the global context |
| C57 | P_Csv | C57_same_cells | Closed under the global context |
| C57 | P_Csv | C57_sockid | Closed under the global context |
| C58 | P_Stall | C58_nobody_is_told | Closed under the global context |
| C58 | P_Stall | C58_backlog | Closed under the global context |
| C58 | P_Stall | C58_exit | Closed under the global context |
| C58 | P_Stall | C58_collection_stops | Closed under the global context |
| C58 | P_Stall | C58_collection_goes_on_refuted | Closed under the global context |
| C59 | P_Metrics | C59_unchanged | Closed under the global context |
| C59 | P_Metrics | C59_dump | Closed under the global context |
| C59 | P_Metrics | C59_not_opened | Closed under the global context |
| C59 | P_Metrics | C59_iterations | Closed under the global context |
| C59 | P_Metrics | C59_connections_refuted | Closed under the global context |
| C59 | P_Metrics | C59_decode | Closed under the global context |
| C59 | P_Metrics | C59_skipped_refuted | Closed under the global context |
| C59 | P_Metrics | C59_flow | Closed under the global context |
| C59 | P_Metrics | C59_close_refuted | Closed under the global context |
| C60 | P_Ticker | C60_pace | Closed under the global context |
| C60 | P_Ticker | C60_no_bursts | Closed under the global context |
| C60 | P_Ticker | C60_block_times | Closed under the global context |
| C60 | P_Ticker | C60_returns | Closed under the global context |
| C60 | P_Ticker | C60_regular | Closed under the global context |
| C60 | P_Ticker | C60_goes_on | Closed under the global context |
| C60 | P_Ticker | C60_observed | Closed under the global context |
| C61 | P_Held | C61_one_each | Closed under the global context |
| C61 | P_Held | C61_files | Closed under the global context |
| C61 | P_Held | C61_connections | Closed under the global context |
| C61 | P_Held | C61_closing | Closed under the global context |
| C61 | P_Held | C61_end | Closed under the global context |
| C61 | P_Held | C61_failed_creation_refuted | Closed under the global context |
| C61 | P_Held | C61_closing_refuted | Closed under the global context |
| C62 | P_CacheStats | C62_figures | Closed under the global context |
| C62 | P_CacheStats | C62_increments | Closed under the global context |
| C62 | P_CacheStats | C62_quiet | Closed under the global context |
| C62 | P_CacheStats | C62_later | Closed under the global context |
| C62 | P_CacheStats | C62_bounded | Closed under the global context |
| C62 | P_CacheStats | C62_blocks | Closed under the global context |
| C62 | P_CacheStats | C62_negative_refuted | Closed under the global context |
| C63 | P_Startup | C63_paths | Closed under the global context |
| C63 | P_Startup | C63_started | Closed under the global context |
| C63 | P_Startup | C63_refuses | Closed under the global context |
| C63 | P_Startup | C63_untouched | Closed under the global context |
| C63 | P_Startup | C63_restart | Closed under the global context |
| C63 | P_Startup | C63_only_latest | Closed under the global context |
| C63 | P_Startup | C63_reached | Closed under the global context |
| C63 | P_Startup | C63_gone | Closed under the global context |
| C63 | P_Startup | C63_file_refuted | Closed under the global context |
| C63 | P_Startup | C63_older_refuted | Closed under the global context |
| C63 | P_Startup | C63_newer_refuted | Closed under the global context |
| C63 | P_Startup | C63_left_refuted | Closed under the global context |
| C64 | P_Texts | C64_grammar | Closed under the global context |
| C64 | P_Texts | C64_record | Closed under the global context |
| C64 | P_Texts | C64_event | Closed under the global context |
| C64 | P_Texts | C64_not_json | Closed under the global context |
| C64 | P_Texts | C64_no_record | Closed under the global context |
| C64 | P_Texts | C64_no_event | Closed under the global context |
| C64 | P_Texts | C64_literals | Closed under the global context |
| C64 | P_Texts | C64_numbers | Closed under the global context |
| C64 | P_Texts | C64_base64 | Closed under the global context |
| C64 | P_Texts | C64_times | Closed under the global context |
| C64 | P_Texts | C64_rfc3339 | Closed under the global context |
| C64 | P_Texts | C64_strict_refuted | Closed under the global context |
| C64 | P_Texts | C64_twice_refuted | Closed under the global context |
| C65 | P_Races | C65_commute | Closed under the global context |
| C65 | P_Races | C65_writers | Closed under the global context |
| C65 | P_Races | C65_records | Closed under the global context |
| C65 | P_Races | C65_changes | Closed under the global context |
| C65 | P_Races | C65_saver_reads | Closed under the global context |
| C65 | P_Races | C65_open | Closed under the global context |
| C66 | P_SetCounters | C66_not_in_production | Closed under the global context |
| C66 | P_SetCounters | C66_received | Closed under the global context |
| C66 | P_SetCounters | C66_sent | Closed under the global context |
| C66 | P_SetCounters | C66_nothing_to_set | Closed under the global context |
| C66 | P_SetCounters | C66_get_stats | Closed under the global context |
| C66 | P_SetCounters | C66_compare | Closed under the global context |
| C67 | P_Prom | C67_registers | Closed under the global context |
| C67 | P_Prom | C67_labels | Closed under the global context |
| C67 | P_Prom | C67_rates | Closed under the global context |
| C67 | P_Prom | C67_total_bits | Closed under the global context |
| C67 | P_Prom | C67_sum_refuted | Closed under the global context |
| C67 | P_Prom | C67_cache_sizes | Closed under the global context |
| C67 | P_Prom | C67_connection_counts | Closed under the global context |
| C68 | P_Faults | C68_same_decisions | Closed under the global context |
| C68 | P_Faults | C68_prefix | Closed under the global context |
| C68 | P_Faults | C68_terminates | Closed under the global context |
| C68 | P_Faults | C68_final | Closed under the global context |
| C68 | P_Faults | C68_wait | Closed under the global context |
| C68 | P_Faults | C68_no_deadlock | Closed under the global context |
| C68 | P_Faults | C68_completes | Closed under the global context |
| C68 | P_Faults | C68_stuck | Closed under the global context |
| C68 | P_Faults | C68_others_complete | Closed under the global context |
| C68 | P_Faults | C68_hang_forever | Closed under the global context |
| C68 | P_Faults | C68_hang_is_local_refuted | Closed under the global context |
| C69 | P_Lock | C69_no_race | Closed under the global context |
| C69 | P_Lock | C69_iteration | Closed under the global context |
| C69 | P_Lock | C69_lock | Closed under the global context |
| C69 | P_Lock | C69_atomic | Closed under the global context |
| C69 | P_Lock | C69_no_deadlock | Closed under the global context |
| C69 | P_Lock | C69_stops | Closed under the global context |
| C69 | P_Lock | C69_panic | Closed under the global context |
| C69 | P_Lock | C69_wait | Closed under the global context |
| C69 | P_Lock | C69_wait_returns | Closed under the global context |
| C69 | P_Lock | C69_wait_for_all_refuted | Closed under the global context |
| C69 | P_Lock | C69_counter_stays_refuted | Closed under the global context |
| C70 | P_Flags | C70_one_reading | Closed under the global context |
| C70 | P_Flags | C70_goes_on | Closed under the global context |
| C70 | P_Flags | C70_status | Closed under the global context |
| C70 | P_Flags | C70_asked | Closed under the global context |
| C70 | P_Flags | C70_numbers | Closed under the global context |
| C70 | P_Flags | C70_rest_ignored | Closed under the global context |
| C70 | P_Flags | C70_expressible | Closed under the global context |
| C70 | P_Flags | C70_excludes | Closed under the global context |
| C70 | P_Flags | C70_bad_variable_refuted | Closed under the global context |
| C70 | P_Flags | C70_misspelt_refuted | Closed under the global context |
| C70 | P_Flags | C70_every_word_refuted | Closed under the global context |
| C70 | P_Flags | C70_client | Closed under the global context |
| C70 | P_Flags | C70_client_status | Closed under the global context |
| C70 | P_Flags | C70_same_rules_refuted | Closed under the global context |
| C71 | P_Privacy | C71_netblock | Closed under the global context |
| C71 | P_Privacy | C71_saver | Closed under the global context |
| C71 | P_Privacy | C71_files | Closed under the global context |
| C71 | P_Privacy | C71_meanwhile | Closed under the global context |
| C71 | P_Privacy | C71_main | Closed under the global context |
| C71 | P_Privacy | C71_events_refuted | Closed under the global context |
| C71 | P_Privacy | C71_exclusion_refuted | Closed under the global context |
| C72 | P_Disk | C72_disk | Closed under the global context |
| C72 | P_Disk | C72_final | Closed under the global context |
| C72 | P_Disk | C72_untouched | Closed under the global context |
| C72 | P_Disk | C72_distinct | Closed under the global context |
| C72 | P_Disk | C72_reused | Closed under the global context |
| C72 | P_Disk | C72_runs | Closed under the global context |
| C72 | P_Disk | C72_next_run | Closed under the global context |
| C72 | P_Disk | C72_lost_refuted | Closed under the global context |
| C72 | P_Disk | C72_mixed_refuted | Closed under the global context |
| C72 | P_Disk | C72_restart_refuted | Closed under the global context |
| C73 | P_Whole | C73_sound | Closed under the global context |
| C73 | P_Whole | C73_complete | Closed under the global context |
| C73 | P_Whole | C73_new_connection | Closed under the global context |
| C73 | P_Whole | C73_meanwhile | Closed under the global context |
| C73 | P_Whole | C73_runs | Closed under the global context |
| C73 | P_Whole | C73_killed_refuted | Closed under the global context |
| C74 | P_Table | C74_table | Closed under the global context |
| C74 | P_Table | C74_one_reading | Closed under the global context |
| C74 | P_Table | C74_written | Closed under the global context |
| C74 | P_Table | C74_lossless | Closed under the global context |
| C74 | P_Table | C74_kernel_cells | Closed under the global context |
| C74 | P_Table | C74_csvtool | Closed under the global context |
| C74 | P_Table | C74_saver_files | Closed under the global context |
| C74 | P_Table | C74_names | Closed under the global context |
| C74 | P_Table | C74_names_refuted | Closed under the global context |
| C75 | P_Line | C75_record | Closed under the global context |
| C75 | P_Line | C75_event | Closed under the global context |
| C75 | P_Line | C75_harmless | Closed under the global context |
| C75 | P_Line | C75_base64 | Closed under the global context |
| C75 | P_Line | C75_strings | Closed under the global context |
| C75 | P_Line | C75_read | Closed under the global context |
| C75 | P_Line | C75_read_event | Closed under the global context |
| C75 | P_Line | C75_one_record | Closed under the global context |
| C75 | P_Line | C75_one_line | Closed under the global context |
| C75 | P_Line | C75_files | Closed under the global context |
| C75 | P_LineDisk | C75_disk | Closed under the global context |
| C75 | P_LineDisk | C75_disk_new | Closed under the global context |
| C75 | P_LineSocket | C75_socket | Closed under the global context |
| C76 | P_Tool | C76_sound | Closed under the global context |
| C76 | P_Tool | C76_complete | Closed under the global context |
| C76 | P_Tool | C76_new_connection | Closed under the global context |
| C77 | P_History | C77_order | Closed under the global context |
| C77 | P_History | C77_numbers | Closed under the global context |
| C77 | P_History | C77_recorded | Closed under the global context |
| C77 | P_History | C77_lines | Closed under the global context |
| C77 | P_History | C77_table | Closed under the global context |
| C77 | P_History | C77_numbers_refuted | Closed under the global context |
| C78 | P_CatchUp | C78_catches_up | Closed under the global context |
| C78 | P_CatchUp | C78_possible | Closed under the global context |
| C78 | P_CatchUp | C78_received | Closed under the global context |
| C79 | P_ProgramRest | C79_program_settles | Closed under the global context |
| C79 | P_ProgramRest | C79_program_files | Closed under the global context |
| C79 | P_RestDisk | C79_disk | Closed under the global context |
| C79 | P_RestDisk | C79_disk_refuted | Closed under the global context |
| C79 | P_SaverCatchUp | C79_comes_to_rest | Closed under the global context |
| C79 | P_SaverCatchUp | C79_files_current | Closed under the global context |
| C79 | P_SaverCatchUp | C79_as_if_shut_down | Closed under the global context |
| C79 | P_SaverCatchUp | C79_lines | Closed under the global context |
| C79 | P_SaverCatchUp | C79_backlog | Closed under the global context |
| C80 | P_ClosedFiles | C80_final | Closed under the global context |
| C80 | P_ClosedFiles | C80_complete | Closed under the global context |
| C80 | P_ClosedFiles | C80_loads | Closed under the global context |
