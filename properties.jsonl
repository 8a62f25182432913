{"id": "C01", "title": "Route attributes are parsed exactly", "statement": "netlink.ParseRouteAttr(b) returns the list (type, value) if and only if b is the rtattr encoding of that list (16-bit little-endian length and type, value, padding to 4 bytes with arbitrary pad bytes) followed by fewer than 4 leftover bytes; it returns EINVAL if and only if a well-formed prefix is followed by an attribute whose length field is below 4 or beyond the end of the input.", "quantifier": "every byte string b, every list of attributes and every choice of padding bytes", "why_tests_cant": "the input space is all byte strings of all lengths; tests parse a handful of captured messages", "anchors": ["netlink/archival-record.go:ParseRouteAttr", "netlink/netlink_linux.go:netlinkRouteAttrAndValue", "netlink/netlink_linux.go:rtaAlignOf"]}
{"id": "C02", "title": "MakeArchivalRecord crashes exactly on an unpadded final attribute", "statement": "MakeArchivalRecord never crashes, for any message bytes and any exclude configuration, except in exactly one case: the message is of the right type, long enough, not excluded, and its attribute area is a well-formed prefix followed by a final attribute that fits in the input but whose 4-byte alignment padding is missing. (So the unrestricted claim 'parsing never crashes on arbitrary bytes' is false, with a 77-byte witness.)", "quantifier": "every netlink message (header and data of any length) and every exclude configuration", "why_tests_cant": "absence of panics over all inputs cannot be sampled", "anchors": ["netlink/archival-record.go:MakeArchivalRecord", "netlink/archival-record.go:ParseRouteAttr"]}
{"id": "C03", "title": "Archival record holds the raw header and the last value of each attribute", "statement": "For every accepted message MakeArchivalRecord returns a record whose RawIDM is exactly the first 72 data bytes and whose Attributes slot t (for every t) is the value of the last attribute of type t in the message if t <= 38, and nil if there is none; the attribute table has 1+min(38, largest type) slots; types above 38 are dropped and never disturb other slots.", "quantifier": "every message, every attribute list including duplicates and out-of-range types", "why_tests_cant": "needs all attribute lists of all lengths, duplicates and type values", "anchors": ["netlink/archival-record.go:MakeArchivalRecord", "inetdiag/structs.go:SplitInetDiagMsg"]}
{"id": "C04", "title": "Malformed messages are rejected with an error, never recorded", "statement": "MakeArchivalRecord returns ErrNotType20 for every message whose header type is not 20, ErrParseFailed for every type-20 message with fewer than 72 data bytes, and in no error case returns a record.", "quantifier": "every message", "why_tests_cant": "all header types and all lengths", "anchors": ["netlink/archival-record.go:MakeArchivalRecord", "inetdiag/structs.go:SplitInetDiagMsg"]}
{"id": "C05", "title": "Exclusion drops exactly the configured connections", "statement": "With an exclude configuration, MakeArchivalRecord returns (nil, nil) for a well-formed message if and only if its source port is a configured port, or Local is set and the source or destination address is local, or its 16-byte destination is a configured destination; with no configuration nothing is excluded. The verdict depends only on the 72-byte header.", "quantifier": "every message and every configuration (any set of ports, addresses, Local on/off)", "why_tests_cant": "cross product of all addresses, ports and configurations", "anchors": ["netlink/archival-record.go:MakeArchivalRecord", "netlink/archival-record.go:ExcludeConfig"]}
{"id": "C06", "title": "Locality test agrees with the IANA address classes", "statement": "The address test used by Local exclusion is true exactly for loopback (127/8, ::1), link-local unicast (169.254/16, fe80::/10), multicast (224/4, ff00::/8) and unspecified addresses, for every AF_INET socket address, for every IPv6 address with a non-zero byte among its last 12, and for IPv4-mapped IPv6 addresses by their IPv4 value. For IPv6 addresses whose last 12 bytes are all zero the code classifies the first 4 bytes as IPv4, so the unrestricted IPv6 claim is false (witness fe80::).", "quantifier": "every 16-byte address", "why_tests_cant": "2^128 addresses", "anchors": ["netlink/archival-record.go:isLocal", "inetdiag/structs.go:ip", "inetdiag/structs.go:isIpv6"]}
{"id": "C07", "title": "AddSrcPort accepts exactly the 16-bit signed decimals", "statement": "AddSrcPort(s) succeeds iff s is an optional sign followed by decimal digits with value in -32768..32767; on success exactly the port (value mod 65536) is added to the excluded set and no other port changes; on failure the configuration is unchanged. Hence for every port p in 0..32767, AddSrcPort(decimal p) makes exactly the connections with that source port excluded; but no decimal string for a port in 32768..65535 is accepted.", "quantifier": "every string, every prior configuration", "why_tests_cant": "all strings and all ports", "anchors": ["netlink/archival-record.go:AddSrcPort"]}
{"id": "C08", "title": "AddDstIP excludes that destination", "statement": "After AddDstIP(s) with s denoting IPv4 address a, every AF_INET message to a is excluded, and for IPv6 address a, every AF_INET6 message to a is excluded; other configured destinations are unchanged; on a string that is not an address nothing changes. IPv4 destinations reached over an IPv4-mapped AF_INET6 socket are NOT excluded (counterexample proved).", "quantifier": "every address, every configuration, every message", "why_tests_cant": "2^128 addresses times all configurations", "anchors": ["netlink/archival-record.go:AddDstIP", "netlink/archival-record.go:MakeArchivalRecord"]}
{"id": "C09", "title": "Compare reports no change iff nothing significant changed", "statement": "For records whose TCP_INFO is at least 168 bytes, new.Compare(old) returns NoMajorChange iff the TCP states are equal, the TCP_INFO bytes before LastDataSent and between PMTU and BusyTime are equal, the attribute tables have the same length and every other attribute is identical (same presence, same bytes); otherwise it returns the documented reason in the documented priority. It never looks at addresses, ports, timers, queues or Last* fields.", "quantifier": "every pair of records", "why_tests_cant": "all pairs of byte tables", "anchors": ["netlink/archival-record.go:Compare"]}
{"id": "C10", "title": "Compare NoMajorChange is an equivalence", "statement": "On records that carry TCP_INFO, 'Compare returns NoMajorChange' is reflexive, symmetric and transitive, and swapping the arguments swaps NewAttribute and LostAttribute and preserves every other verdict, so comparing against the previous poll is as good as comparing against the last saved record.", "quantifier": "every pair/triple of records", "why_tests_cant": "algebraic law over all records", "anchors": ["netlink/archival-record.go:Compare"]}
{"id": "C11", "title": "Compare crash condition", "statement": "Compare panics exactly when both records parse, have the same state, both carry TCP_INFO, and one of the two TCP_INFO values has fewer than 168 bytes of backing capacity; it never panics otherwise. When the value is shorter than 168 but its backing buffer is longer, bytes outside the attribute are compared (so the verdict can depend on unrelated bytes; witness proved).", "quantifier": "every pair of records including nil RawIDM, missing and truncated attributes", "why_tests_cant": "absence of panics over all inputs", "anchors": ["netlink/archival-record.go:Compare"]}
{"id": "C12", "title": "GetStats and HasDiagInfo", "statement": "GetStats returns the little-endian 64-bit values at offsets 200 and 128 of TCP_INFO when that attribute is present with at least 208 bytes, and (0,0) in every other case, never panicking. HasDiagInfo is true iff the attribute table has more than 2 slots - which is weaker than 'there is a TCP_INFO attribute' (witness: a record with only SHUTDOWN).", "quantifier": "every record", "why_tests_cant": "all records", "anchors": ["netlink/archival-record.go:GetStats", "netlink/archival-record.go:HasDiagInfo"]}
{"id": "C13", "title": "Socket identity extraction", "statement": "For every parsed header, SPort/DPort are the big-endian ports, Cookie the little-endian 64-bit cookie, and SockID.CookieUint64 of GetSockID gives back exactly Cookie for all 2^64 values although the field is signed; distinct cookies give distinct SockIDs.", "quantifier": "every 72-byte header", "why_tests_cant": "2^64 cookies; sign-boundary values", "anchors": ["inetdiag/structs.go:GetSockID", "inetdiag/structs.go:CookieUint64", "inetdiag/structs.go:Cookie", "inetdiag/structs.go:SPort"]}
{"id": "C14", "title": "Anonymize touches only the addresses", "statement": "RawInetDiagMsg.Anonymize(anon) on an AF_INET6 header replaces exactly the two 16-byte addresses by anon of them, on AF_INET exactly the first 4 bytes of each, leaving every other byte (family, state, ports, cookie, ...) and the length unchanged; for other families and short headers it returns an error and changes nothing.", "quantifier": "every header and every length-preserving anonymizer", "why_tests_cant": "all headers x all anonymizers", "anchors": ["inetdiag/structs.go:Anonymize"]}
{"id": "C15", "title": "The cache returns the previous round's record", "statement": "Over every sequence of Update and EndCycle calls: Update(m) returns the record stored for m's cookie by the last Update for that cookie in the previous round if this is the first Update of the cookie in the current round, else nil; EndCycle returns exactly the previous round's records whose cookie was not updated in the current round. An unparsable record is refused and changes nothing.", "quantifier": "every history of operations of any length", "why_tests_cant": "unbounded histories", "anchors": ["cache/cache.go:Update", "cache/cache.go:EndCycle"]}
{"id": "C16", "title": "The cache neither loses nor duplicates records", "statement": "Over every history in which each cookie is updated at most once per round, every record given to Update is handed back exactly once - by a later Update of the same cookie in the next round or by the EndCycle closing the next round - or is still held; and CycleCount equals the number of EndCycle calls.", "quantifier": "every history of operations", "why_tests_cant": "unbounded histories", "anchors": ["cache/cache.go:Update", "cache/cache.go:EndCycle", "cache/cache.go:CycleCount"]}
{"id": "C17", "title": "Open and Close events alternate per flow", "statement": "For every history of message blocks, clock, file-system outcome and map order: two Open events for a cookie are always separated by a Close for it. If all cookies are non-zero and all file creations succeed, the events of each cookie are exactly Open, Close, Open, Close, ... starting with Open, and after shutdown every Open has its Close. (Without the guards a Close without an Open and a duplicate Close are possible: witnesses for cookie 0 and for a failed rotation.)", "quantifier": "every history, schedule of clock values, I/O failures and map iteration order", "why_tests_cant": "unbounded histories and environments", "anchors": ["saver/saver.go:queue", "saver/saver.go:endConn", "saver/saver.go:MessageSaverLoop"]}
{"id": "C18", "title": "Open exactly on appearance, Close exactly on disappearance", "statement": "With non-zero cookies and successful file creation, processing one message block emits exactly one Open event for each non-excluded connection that is in this block and was not in the previous one, exactly one Close event for each that was in the previous block and is not in this one, and no event for connections in both.", "quantifier": "every reachable saver state and every block", "why_tests_cant": "unbounded histories", "anchors": ["saver/saver.go:MessageSaverLoop", "saver/saver.go:swapAndQueue", "saver/saver.go:endConn"]}
{"id": "C19", "title": "Files never mix connections", "statement": "In every run, each output file starts with one metadata header whose UUID is that of its connection, and every record written to it has that connection's cookie; the header is written before any record is queued for the file.", "quantifier": "every history and environment", "why_tests_cant": "unbounded histories", "anchors": ["saver/saver.go:queue", "saver/saver.go:Rotate", "saver/saver.go:writeHeader"]}
{"id": "C20", "title": "Every writer is closed exactly once, after its last record", "statement": "For every history and environment, after MessageSaverLoop ends each writer that was opened gets exactly one close task, no record task is queued to it after the close task, and every record task names a writer that is open.", "quantifier": "every history, clock, failure pattern, map order", "why_tests_cant": "unbounded histories", "anchors": ["saver/saver.go:queue", "saver/saver.go:endConn", "saver/saver.go:Close"]}
{"id": "C21", "title": "File sequence numbers and names", "statement": "The files of one connection lifetime are numbered 0,1,2,... without gap or repetition, names of files are injective in (date, cookie, sequence), so no two files of one lifetime collide. A file is named YYYY/MM/DD/PREFIX_COOKIE.NNNNN.jsonl.zst: the UTC date of the start of the connection for the first file and of the creation for the others, 16 hexadecimal digits of the cookie, at least five digits of the number. The date is right for every time an int64 of Unix seconds reaches (but the first 258 years), computed as Go does it in uint64 arithmetic. Across lifetimes they do: if a connection is missing from one poll (e.g. one failed netlink dump) and reappears, the same path is created again, truncating the earlier file (witness proved).", "quantifier": "every history; all cookies, sequence numbers and dates", "why_tests_cant": "unbounded histories", "anchors": ["saver/saver.go:Rotate", "saver/saver.go:queue", "uuid.FromCookie (external)"]}
{"id": "C22", "title": "Rotation bounds", "statement": "If the clock never goes back during a run, every record of a file is queued between the creation of the file and 10 minutes after it, so no file ever spans more than 10 minutes of records; file number n of a connection is created more than n*10 minutes after the connection's Open. Expirations are counted from the Open, not from the creation of the file, so files may follow each other within seconds after a quiet period (witness proved).", "quantifier": "every history, every monotonic clock", "why_tests_cant": "needs all clocks", "anchors": ["saver/saver.go:Rotate", "saver/saver.go:queue"]}
{"id": "C23", "title": "No significant change is missed", "statement": "At the end of every polling round, for every connection currently held, the last record queued to its files has the same significant content (as in C09) as the latest record observed for it - provided file creation never fails. So skipping 'unchanged' polls never loses a significant change, however long the run of skips.", "quantifier": "every history", "why_tests_cant": "the claim is about arbitrarily long runs of skipped polls", "anchors": ["saver/saver.go:swapAndQueue", "cache/cache.go:Update", "netlink/archival-record.go:Compare"]}
{"id": "C24", "title": "A snapshot is queued iff new or significantly changed", "statement": "Each accepted message with a non-zero cookie leads to exactly one record task (carrying the block's timestamp for its family) if its connection was not in the previous round, already appeared in this round, or differs significantly (C09) from the previous round's record, and to none otherwise; tasks are queued in message order. In no environment is anything else queued.", "quantifier": "every history", "why_tests_cant": "unbounded histories", "anchors": ["saver/saver.go:handleType", "saver/saver.go:swapAndQueue", "saver/saver.go:queue"]}
{"id": "C25", "title": "Byte totals equal the sum over all connections ever seen", "statement": "If each connection appears once per round, reports TCP_INFO of at least 208 bytes until it possibly loses all attributes above type 1 for good, then the total used for the throughput report equals (mod 2^64) the sum over every connection ever seen of its last reported BytesSent/BytesReceived. If a record loses TCP_INFO but keeps any attribute of type above 2, bytes vanish from the total (witness); if TCP_INFO comes back, bytes are counted twice (witness).", "quantifier": "every history satisfying the stated discipline", "why_tests_cant": "unbounded histories", "anchors": ["saver/saver.go:MessageSaverLoop", "saver/saver.go:swapAndQueue"]}
{"id": "C26", "title": "Throughput reports are monotone, bounded and at most one per second", "statement": "The cumulative byte count reported to the send (receive) histogram never decreases, equals the sum of all observations, each observation is at most 12.5e9 bytes, and observations happen at most once per distinct V4Time second, with strictly increasing seconds. If the total ever exceeds the reported value by more than that bound and does not shrink afterwards, no further observation is ever made.", "quantifier": "every history", "why_tests_cant": "unbounded histories", "anchors": ["saver/saver.go:MessageSaverLoop"]}
{"id": "C27", "title": "Saver counters are consistent", "statement": "After any history: total = number of accepted messages, new + diff <= total, new + diff = increments of the snapshot metric, expired = number of Close events emitted before shutdown; the cache size is observed once per block and is the number of connections accepted in it; the file counter is the number of files created; the 'same' figure logged is never negative for localCount=errCount=0.", "quantifier": "every history", "why_tests_cant": "unbounded histories", "anchors": ["saver/saver.go:stats", "saver/saver.go:LogCacheStats"]}
{"id": "C28", "title": "File contents do not depend on goroutine scheduling", "statement": "For every interleaving of the saver goroutine with the marshaller goroutines over the bounded channels, including in-place anonymization of records that are still in the cache, the bytes written to each file are the header line followed by exactly the queued records' lines in queue order, the saver takes the same decisions, and the outcome is the same as in the sequential execution.", "quantifier": "every schedule, any number of marshallers, every history, every anonymizer", "why_tests_cant": "schedules cannot be enumerated by tests", "anchors": ["saver/saver.go:runMarshaller", "saver/saver.go:newMarshaller", "saver/saver.go:queue", "inetdiag/structs.go:Anonymize"]}
{"id": "C29", "title": "Only anonymized addresses reach the files", "statement": "In every run and schedule, every record line written to a file is the rendering of a record whose addresses were passed through the anonymizer exactly once; records of unknown address family are never written.", "quantifier": "every schedule and history", "why_tests_cant": "schedules cannot be enumerated", "anchors": ["saver/saver.go:runMarshaller", "inetdiag/structs.go:Anonymize"]}
{"id": "C30", "title": "Shutdown always completes and closes everything", "statement": "After the input channel is closed, every schedule of the saver and marshaller goroutines terminates (no infinite run), no reachable state is deadlocked, and when Done.Wait returns every queued task has been executed and every writer closed.", "quantifier": "every schedule, history and channel capacity >= 1", "why_tests_cant": "liveness over all schedules", "anchors": ["saver/saver.go:Close", "saver/saver.go:runMarshaller", "main.go:main"]}
{"id": "C31", "title": "Excluded connections leave no trace", "statement": "For every history, inserting or removing excluded, nil or rejected messages anywhere in the blocks changes nothing: same files, same events, same cache, same counters.", "quantifier": "every history and every position", "why_tests_cant": "non-interference over unbounded histories", "anchors": ["saver/saver.go:handleType", "netlink/archival-record.go:MakeArchivalRecord"]}
{"id": "C32", "title": "Snapshot decoding yields the kernel's fields", "statement": "snapshot.Decode places in TCPInfo, MemInfo, SocketMem, VegasInfo, DCTCPInfo and BBRInfo exactly the little-endian fields at the kernel's struct offsets, reading missing trailing bytes as zero; the header fields and the small integer attributes likewise; absent attributes leave the field nil/zero; Metadata and Timestamp are passed through.", "quantifier": "every record", "why_tests_cant": "all byte strings of all lengths", "anchors": ["snapshot/snapshot.go:Decode", "snapshot/snapshot.go:maybeCopy", "tcp/tcpinfo.go:LinuxTCPInfo"]}
{"id": "C33", "title": "Observed and NotFullyParsed bits", "statement": "For every record with at most 256 attribute slots, bit t-1 of Observed is set iff attribute t (1..32) is present; NotFullyParsed is a subset of Observed and its bit is set iff the attribute is of an undecoded type, is longer than the struct it decodes to, is an empty one-byte field, or is a MARK not of length 4.", "quantifier": "every record", "why_tests_cant": "all records", "anchors": ["snapshot/snapshot.go:Decode"]}
{"id": "C34", "title": "Decode crashes exactly on an empty congestion attribute", "statement": "Decode panics iff attribute 4 (INET_DIAG_CONG) is present and empty (and the record is otherwise accepted); no other input makes it panic. An empty congestion attribute is reachable from a netlink message.", "quantifier": "every record", "why_tests_cant": "absence of panics over all inputs", "anchors": ["snapshot/snapshot.go:CongestionAlgorithm", "snapshot/snapshot.go:Decode"]}
{"id": "C35", "title": "LoadAll returns one snapshot per record, in order", "statement": "snapshot.LoadAll returns either an error and nothing else, when some record before the end fails to read or decode, or exactly the decoded records in order together with the last non-nil metadata.", "quantifier": "every record stream", "why_tests_cant": "unbounded streams", "anchors": ["snapshot/snapshot.go:LoadAll", "snapshot/snapshot.go:Next"]}
{"id": "C36", "title": "JSONL reading: lines, errors and silent truncation", "statement": "LoadAllArchivalRecords over any byte stream whose lines are each shorter than 65536 bytes returns one record per line up to the first undecodable line, which it reports. A line of 65536 bytes or more, or a read error at a line boundary, silently ends the stream without error (witness proved).", "quantifier": "every byte stream", "why_tests_cant": "all streams and lengths", "anchors": ["netlink/archival-record.go:NewArchiveReader", "netlink/archival-record.go:LoadAllArchivalRecords"]}
{"id": "C37", "title": "Raw netlink stream reading", "statement": "Reading the concatenation of serialized netlink messages with NewRawReader yields exactly those messages in order and then EOF; a stream cut anywhere inside a message yields the complete messages and then an error, which is io.EOF if the cut is right after a header (so that truncation is undetectable) and ErrUnexpectedEOF otherwise.", "quantifier": "every list of messages and every cut point", "why_tests_cant": "all crash points", "anchors": ["netlink/archival-record.go:LoadRawNetlinkMessage", "netlink/archival-record.go:rawReader.Next"]}
{"id": "C38", "title": "Archival records survive JSONL", "statement": "json-encoding an ArchivalRecord and decoding it gives back the same record (empty slices with omitempty become nil), the encoding contains no newline byte, for all byte contents of all fields and all UTC timestamps of years 0..9999. Lines of other writers are read alike whatever the order of their members, members with other names are skipped, and missing members leave the zero value.", "quantifier": "every record", "why_tests_cant": "all byte contents and lengths", "anchors": ["netlink/archival-record.go:ArchivalRecord", "encoding/json, encoding/base64 (external)"]}
{"id": "C39", "title": "What the saver writes, the reader reads back", "statement": "For every history and schedule, reading a finished file (lines shorter than 65536 bytes) with NewArchiveReader yields first the metadata record (UUID, sequence, start time) and then exactly the anonymized records queued for that file, in order. All lines are that short if the netlink messages have at most 48000 bytes of data; a message of 49284 bytes makes a line at which reading stops without an error (witness proved).", "quantifier": "every history, schedule and file", "why_tests_cant": "end-to-end over unbounded histories", "anchors": ["saver/saver.go:runMarshaller", "saver/saver.go:writeHeader", "netlink/archival-record.go:LoadAllArchivalRecords"]}
{"id": "C40", "title": "OneType returns the dump up to its terminator", "statement": "For every sequence of received batches: OneType returns the messages before the first NLMSG_DONE / final message, with error iff a bad sequence number, bad pid, short error payload or receive failure comes first. A kernel NLMSG_ERROR with non-zero code is returned as an ordinary message with nil error (witness proved).", "quantifier": "every sequence of received messages", "why_tests_cant": "all reply sequences", "anchors": ["collector/socket-monitor_linux.go:OneType", "collector/socket-monitor_linux.go:processSingleMessage"]}
{"id": "C41", "title": "The collector sends one block per iteration", "statement": "Run sends exactly one block per iteration, exactly reps blocks when reps > 0 and the context is not cancelled, none for reps < 0, at most as many as iterations started before cancellation otherwise; each block carries the dump results of both families; a failed dump is sent as an empty family, indistinguishable from all its connections having closed. Run always returns (0, 0).", "quantifier": "every reps, every cancellation point, every dump outcome", "why_tests_cant": "all cancellation points", "anchors": ["collector/collector_linux.go:Run", "collector/collector_linux.go:collectDefaultNamespace"]}
{"id": "C42", "title": "The dump request asks for the right states and attributes", "statement": "The request built for a family carries that family, protocol TCP, the state mask with bit s set iff s is a TCP state 0..11 other than SYN_RECV, TIME_WAIT, CLOSE, and the extension mask with all of MEMINFO..SHUTDOWN; its serialization has 56 bytes at the kernel's offsets and is injective.", "quantifier": "every family and every state number", "why_tests_cant": "bit-level claim over all states and families", "anchors": ["collector/socket-monitor_linux.go:makeReq", "inetdiag/structs.go:NewReqV2", "inetdiag/structs.go:Serialize"]}
{"id": "C43", "title": "Event clients see a gap-free in-order segment", "statement": "For every schedule of event producers, accepts, broadcasts, write failures and client removals, each client is written exactly a contiguous segment of the broadcast lines, in order and without duplication, from its registration to its removal; a client no write to which has failed has received everything since registration, whatever happens to other clients; a client at which nothing arrives after a failed write has received a gap-free segment plus at most a part of the next line. A client to which a write fails and a later one succeeds before its removal sees a gap (witness proved).", "quantifier": "every schedule, any number of clients and events", "why_tests_cant": "schedules cannot be enumerated", "anchors": ["eventsocket/server.go:sendToAllListeners", "eventsocket/server.go:notifyClients", "eventsocket/server.go:addClient", "eventsocket/server.go:removeClient"]}
{"id": "C44", "title": "Event server shutdown", "statement": "In every schedule, events are broadcast in the order they were submitted, each at most once; after cancellation the server's goroutines can always finish; the listener and event channel are closed exactly once. Submitting an event after the cancellation cleanup panics, and events still buffered at cancellation may be lost (witnesses proved).", "quantifier": "every schedule", "why_tests_cant": "schedules cannot be enumerated", "anchors": ["eventsocket/server.go:Serve", "eventsocket/server.go:FlowCreated", "eventsocket/server.go:notifyClients"]}
{"id": "C45", "title": "Event client delivers exactly the received events", "statement": "MustRun invokes the handler once per Open/Close line, in stream order, with the timestamp, UUID and socket ID of the event, ignoring unknown event numbers; what the server sends for FlowCreated/FlowDeleted is delivered unchanged, so that together with the server each client's handler is called for a gap-free segment of the submitted events. The order of the members of a line, and members with other names, make no difference; missing members leave the zero value. A connection closed in the middle of a line ends the process even if it was closed on purpose (witness proved).", "quantifier": "every event sequence, every division of the stream into reads, every server schedule", "why_tests_cant": "unbounded sequences and schedules", "anchors": ["eventsocket/client.go:MustRun", "eventsocket/server.go:FlowEvent"]}
{"id": "C46", "title": "State and event names are unambiguous", "statement": "tcp.State.String is total and injective over all int32 values, TCPEvent.String is total and injective over all int64 values; known names never collide with the UNKNOWN_STATE_/TCPEvent() forms.", "quantifier": "every 32-bit (64-bit) value", "why_tests_cant": "2^32 and 2^64 values", "anchors": ["tcp/tcpinfo.go:String", "eventsocket/tcpevent_string.go:String"]}
{"id": "C47", "title": "zstd writer close waits for the compressor", "statement": "For every schedule of the caller and the compressor process, a Close that returns nil returns only after the compressor has exited, and if the compressor succeeded the file holds exactly the bytes of the successful writes; Close always returns, and unless the compressor fails the file is then complete; writes run at most 65536 bytes ahead of the compressor; every call after Close returns an error immediately. If the compressor fails, Write and Close still return nil although data is lost (witness proved).", "quantifier": "every schedule and write sequence", "why_tests_cant": "schedules cannot be enumerated", "anchors": ["zstd/zstd.go:NewWriter", "zstd/zstd.go:waitingWriteCloser"]}
{"id": "C48", "title": "The saver survives every well-formed history", "statement": "With at least one marshaller, a history whose messages do not crash the parser (C02) and whose records are comparable (C09: TCP_INFO, if present, of at least 168 bytes) never crashes the saver, whatever the file system and the clock do. With no marshaller, or with a shorter TCP_INFO, it does crash (witnesses proved).", "quantifier": "every history, clock, failure pattern, map order", "why_tests_cant": "unbounded histories and environments", "anchors": ["saver/saver.go:MessageSaverLoop", "saver/saver.go:swapAndQueue", "saver/saver.go:endConn"]}
{"id": "C49", "title": "The address texts of a socket identify its addresses", "statement": "SockID.SrcIP and DstIP are the canonical texts of the two 16-byte addresses of the header: dotted decimal if the last twelve bytes are zero or the address is IPv4-mapped, RFC 5952 (lower case, no leading zeros, '::' for the first longest run of at least two zero groups) otherwise; net.ParseIP gives the address back; two sockets have the same text exactly if they have the same bytes or the same IPv4 address. The text of an IPv6 address whose last twelve bytes are zero reads as an IPv4 address (witness proved).", "quantifier": "every inet_diag header", "why_tests_cant": "2^128 addresses; all patterns of zero groups", "anchors": ["inetdiag/structs.go:GetSockID", "inetdiag/structs.go:SrcIP", "inetdiag/structs.go:DstIP", "inetdiag/structs.go:ip"]}
{"id": "C50", "title": "A compressed file reads back completely or the program ends", "statement": "For every schedule of the user of zstd.NewReader, the decompressor process and its goroutine: the bytes read are a prefix of the file's contents; the end of the stream is reported only after all bytes of an intact file have been read (a damaged file or a failing decompressor ends the program instead of looking like a shorter file); a user who keeps reading an intact file gets to the end; the decompressor is at most 65536 bytes ahead of what has been read; after zstd.NewWriter and a successful Close the bytes written are the bytes read. Closing the reader before the decompressor has written everything ends the program.", "quantifier": "every schedule, file and division into reads", "why_tests_cant": "schedules cannot be enumerated", "anchors": ["zstd/zstd.go:NewReader"]}
{"id": "C51", "title": "The flags of the command exclude exactly what they name", "statement": "With any values of -exclude-dstip and -exclude-srcport, in any order, main's configuration leaves out a connection exactly if one of its ends is local, its destination is one of the addresses named, or its local port is one of the 16-bit signed numbers named; values that are not addresses or numbers are skipped without effect on the others; no connection that is to be left out reaches a file of the running saver.", "quantifier": "every list of flag values, every message, every schedule", "why_tests_cant": "unbounded lists of texts", "anchors": ["main.go:main", "netlink/archival-record.go:AddDstIP", "netlink/archival-record.go:AddSrcPort"]}
{"id": "C52", "title": "From the kernel's messages to snapshots", "statement": "For every history of dumps (with messages of at most 48000 bytes that do not crash the parser) and every schedule: snapshot.LoadAll of any file of the finished saver, also through zstd, gives one snapshot for the metadata and then one snapshot per IPv4 or IPv6 record queued for that file, in order, each showing the time of the dump and the header (addresses anonymized) and attributes of the kernel's message, decoded field by field. LoadAll crashes exactly if a message of the file has an empty congestion attribute (witness proved).", "quantifier": "every history and schedule", "why_tests_cant": "unbounded histories; schedules cannot be enumerated", "anchors": ["saver/saver.go:MessageSaverLoop", "saver/saver.go:runMarshaller", "netlink/archival-record.go:Next", "snapshot/snapshot.go:LoadAll", "snapshot/snapshot.go:Decode"]}
{"id": "C53", "title": "The example client never holds up the stream of events", "statement": "For every sequence of handler calls and every schedule of the processing goroutine: each call returns at once, is answered exactly once and in order; the events processed are those handed over, in order; an event that arrives while the goroutine waits is not skipped. Events that arrive while it is busy are skipped (witness proved).", "quantifier": "every sequence of calls, every schedule", "why_tests_cant": "schedules cannot be enumerated", "anchors": ["cmd/example-eventsocket-client/main.go:Open", "cmd/example-eventsocket-client/main.go:ProcessOpenEvents"]}
{"id": "C54", "title": "What the saver observes is what the event clients are told", "statement": "For every schedule of the whole process: an event client to which no write has failed has been told, at every moment it is not being written to, exactly a contiguous segment (no gap, repetition or change) of what the saver reports for the blocks collected so far; the segment starts no later than the first report after the client was added, and what follows it is at most 101 reports in the server plus what the saver has not done yet. Every report is truthful: an Open carries the time of a dump, the UUID, ports, addresses, interface and cookie of a connection that the dump listed; a Close carries a reading of the clock and the UUID of a connection that a dump listed. About any one connection with a nonzero cookie the client is told of an open and a close in turn (when directories and files can be created), beginning with an open if it was there from the start; in no environment of two opens in a row. When main returns, reports may be undelivered (witness proved). A Close does not mean that the connection's file is complete: it may still be open and lack records (witness proved).", "quantifier": "every schedule of main, collector, saver, marshallers, event server and clients", "why_tests_cant": "schedules cannot be enumerated; unbounded histories", "anchors": ["main.go:main", "saver/saver.go:MessageSaverLoop", "eventsocket/server.go:FlowCreated", "eventsocket/server.go:FlowDeleted", "eventsocket/server.go:notifyClients", "eventsocket/client.go:MustRun"]}
{"id": "C55", "title": "The program as a whole: what is collected is saved, and it ends", "statement": "For every schedule of the whole process: the saver gets the blocks of the collector's iterations in order, exactly -reps of them if main returns and the context was not cancelled; when main returns every file is complete, closed and exactly what the saver's sequential loop writes; nothing crashes while the context is not cancelled; the process never gets stuck while writes to event clients return (C58); with -reps not 0 it makes finitely many steps and every state leads to main's return; with -reps 0 another block always follows. A context cancelled from outside before main returns can crash the process in the event server (witness proved).", "quantifier": "every schedule of main, collector, saver, marshallers, event server and clients", "why_tests_cant": "schedules cannot be enumerated; unbounded executions", "anchors": ["main.go:main", "collector/collector_linux.go:Run", "saver/saver.go:MessageSaverLoop", "saver/saver.go:Close", "eventsocket/server.go:Serve"]}
{"id": "C56", "title": "csvtool converts a whole file or fails", "statement": "With no argument csvtool reads standard input, with one the named file (through zstd exactly if the name ends with .zst), with more it fails. If the lines are below 64 KiB it succeeds exactly if every line holds a record that decodes, and then prints the CSV of all the snapshots in order; otherwise it prints nothing and fails. For every schedule of the decompressor beside it, success on a compressed file means that the file was complete and undamaged, and for such a file no schedule gives another result, which can be reached from every state in which the decompressor has not failed. A line of 64 KiB or more, or a read error between two lines, gives a partial CSV and success (witnesses proved).", "quantifier": "every argument list, source, division into reads and schedule; gocsv an arbitrary function", "why_tests_cant": "unbounded inputs; schedules cannot be enumerated", "anchors": ["cmd/csvtool/main.go:main", "cmd/csvtool/main.go:openFile", "snapshot/snapshot.go:LoadAll", "zstd/zstd.go:NewReader"]}
{"id": "C57", "title": "CSV cells identify the socket", "statement": "The six IDM.SockID cells of a record are its ports and interface in plain decimal (network byte order), its addresses in canonical text, and its cookie in upper-case hexadecimal without leading zeros (host byte order): the values of GetSockID. Two records have the same cells exactly if these fields agree and the addresses have the same text.", "quantifier": "every inet_diag header", "why_tests_cant": "2^300 headers", "anchors": ["inetdiag/structs.go:MarshalCSV", "inetdiag/structs.go:GetSockID"]}
{"id": "C58", "title": "A client of the event socket that stops reading", "statement": "For every schedule of the whole process, from the moment a write to an event client does not return and for as long as it does not: no further event is sent to any client, no client is added or removed, the server cannot end even after cancellation, and the saver gets at most 100 events further (less those already waiting), so that main returns only if no more are left. Once 100 events wait and the saver has another one, it does nothing more: only queued records are written, at most two more blocks are collected, and main does not return. So collection does not go on independently of the event clients (witness proved).", "quantifier": "every schedule of main, collector, saver, marshallers, event server and clients in which that write does not return", "why_tests_cant": "schedules cannot be enumerated; unbounded executions", "anchors": ["eventsocket/server.go:sendToAllListeners", "eventsocket/server.go:FlowCreated", "eventsocket/server.go:FlowDeleted", "saver/saver.go:MessageSaverLoop", "main.go:main"]}
{"id": "C59", "title": "What the metrics count", "statement": "For every conversation with the kernel: a dump is observed exactly once in the latency and connection-count histograms, under the name of its address family, however it ends; every reply up to the end of the dump is counted once in the error counter if it is of another request, of another process or a refusal, and not otherwise; the observed number of connections is the number of messages of this dump that are neither its end nor foreign (more than are handed over if reading fails, and a refusal counts, witness proved). Every iteration of Run observes IPv6, IPv4 and the polling interval, in this order. Every record that is decoded counts each attribute longer than its struct, and each attribute of an undecoded type except MD5SIG, exactly once. For every schedule of the whole process the flow events counter is the number of opened connections reported; closes are not counted (witness proved). Updating the metrics changes no result.", "quantifier": "every answer of the kernel, every record, every schedule", "why_tests_cant": "unbounded conversations; schedules cannot be enumerated", "anchors": ["collector/socket-monitor_linux.go:OneType", "collector/socket-monitor_linux.go:processSingleMessage", "collector/collector_linux.go:Run", "snapshot/snapshot.go:Decode", "snapshot/snapshot.go:maybeCopy", "eventsocket/server.go:FlowCreated"]}
{"id": "C60", "title": "The pace of the collector", "statement": "For every timing of the ticker, of Run and of the dumps: iteration k of Run does not begin before k times 10 ms have passed, and there are no bursts: j-i iterations (at least 3) take more than j-i-3 times 10 ms. Every block carries the times of its two dumps, taken between the start and the end of its iteration, and iterations do not overlap. Run returns only when no iteration is due, so with -reps r not before r times 10 ms. If the ticker and Run are never late by more than l and collecting takes at most d with 3l+d below 10 ms, iteration k begins within 3l of k times 10 ms: no tick is lost. The polling histogram gets, per iteration, the time between the ends of consecutive iterations.", "quantifier": "every timing, unbounded numbers of iterations", "why_tests_cant": "timings cannot be enumerated", "anchors": ["collector/collector_linux.go:Run", "collector/collector_linux.go:collectDefaultNamespace"]}
{"id": "C61", "title": "The saver holds nothing of connections that are gone", "statement": "In every environment and at every moment each open output file (created, and no close task queued) belongs to one connection with a non-zero cookie, and no connection has two. If files can be created, after each block exactly the connections of that block have an open file and an entry in Connections, so that the number of open files is the number of connections in the last dump; after MessageSaverLoop ends no file is open. ClosingStats has entries of connections of the last block only, if TCP_INFO once gone does not come back. Otherwise entries stay for ever: in Connections when a file could not be created, in ClosingStats when TCP_INFO comes back (witnesses proved).", "quantifier": "every history, clock, file-system outcome and map order", "why_tests_cant": "leaks only show over unbounded histories", "anchors": ["saver/saver.go:queue", "saver/saver.go:endConn", "saver/saver.go:MessageSaverLoop", "saver/saver.go:Close"]}
{"id": "C62", "title": "What LogCacheStats prints while the saver is working", "statement": "LogCacheStats is called by the collector's goroutine while the saver increments the counters, and loads them one after the other. The counters start at 0 and go up one increment at a time, the total first. For every history and all moments of the four loads: the total printed is the one at the beginning of the call, new and diff lie between their values at its beginning and end, total = same + diff + new, and same is too small by no more than the records handled during the call; a later call never prints a smaller total, new or diff; nothing printed exceeds what the blocks given to the saver contain. If the counters do not move during the call the figures are those of that moment, none negative. In general same can be negative (witness proved).", "quantifier": "every history and all moments of the four loads", "why_tests_cant": "races between two goroutines show in few runs", "anchors": ["saver/saver.go:LogCacheStats", "saver/saver.go:Copy", "saver/saver.go:swapAndQueue", "collector/collector_linux.go:Run"]}
{"id": "C63", "title": "Starting up, and the file of the event socket", "statement": "main starts collecting exactly if everything asked for works: the -output directory can be made and entered, metrics are served, a trace file can be made, and the event socket can be bound; then its current directory is -output and a client that dials the event socket reaches this process. A stale socket, a file or an empty directory at that path, left by whatever history of earlier instances, does not keep it from starting; nothing else on the machine is touched. Only the instance that began to listen last can be reached, and it is until it closes its listener or ends, if no other instance starts or closes its listener; afterwards it never is again. Witnesses prove that an unrelated file of that name is deleted, that a second instance cuts the first one off, that the first one's shutdown cuts off the second, and that a socket may be left behind.", "quantifier": "every answer of the operating system and every history of instances sharing a path", "why_tests_cant": "needs interleavings of several processes and failing system calls", "anchors": ["main.go:main", "eventsocket/server.go:Listen", "eventsocket/server.go:Serve", "eventsocket/server.go:NullServer"]}
{"id": "C64", "title": "Which lines are records, and which are events", "statement": "ArchiveReader.Next and the event client take a line exactly if it is a JSON text (RFC 8259, up to 10000 arrays and objects inside one another) that describes a record or an event, and give what it describes, whoever wrote it: names of members in any order and in upper or lower case, unknown ones ignored, absent ones and null leaving zero values; integers in range without fraction or exponent; byte slices in base64 (line ends allowed) or as arrays of numbers; times in RFC 3339 with any offset (and some that RFC 3339 does not allow: an hour of one digit, a comma before the fraction, offsets up to 99:99); strings with all escapes, surrogate pairs, and U+FFFD for what is not Unicode. Everything else is an error, never a crash. This holds for texts in which no field is named twice (otherwise the last one counts, witness proved).", "quantifier": "every line", "why_tests_cant": "there are infinitely many texts; tests use what the encoder writes", "anchors": ["netlink/archival-record.go:Next", "netlink/archival-record.go:ArchivalRecord", "netlink/archival-record.go:Metadata", "eventsocket/client.go:MustRun", "eventsocket/server.go:FlowEvent", "inetdiag/structs.go:SockID"]}
{"id": "C65", "title": "The goroutines of the saver do not get in each other's way", "statement": "For every history and schedule: whenever two of the saver goroutine and its marshallers can both go on, either may go first and the other can still do what it was about to do, with the same result (so no step reads what another one is changing). A writer is in the hands of one marshaller at a time, and of the saver only before any marshaller has it; a record is with one marshaller at a time. A step changes no file but the one its goroutine is at, and of the records the saver still has in its cache only the addresses of the one its marshaller is at; what the saver does does not depend on those bytes. No schedule makes anyone write to or close a writer that has been closed, or make one twice.", "quantifier": "every history, environment and schedule, any number of marshallers and channel capacity", "why_tests_cant": "data races show in few runs, and the race detector only sees the runs it is given", "anchors": ["saver/saver.go:runMarshaller", "saver/saver.go:queue", "saver/saver.go:swapAndQueue", "saver/saver.go:endConn", "inetdiag/structs.go:Anonymize", "netlink/archival-record.go:Compare"]}
{"id": "C66", "title": "Counters set by tests", "statement": "SetBytesReceived and SetBytesSent panic outside of tests. In a test they return the old counter of the record and store the new one: exactly its eight bytes of TCP_INFO change, no other byte of it, nothing beyond its end, no other attribute or field; GetStats then returns the new value and the other counter as before. If the record has no TCP_INFO with the whole field they return 0 and change nothing. Compare reports a changed number of received bytes as a change and never reports another number of sent bytes.", "quantifier": "every record and every 64-bit value", "why_tests_cant": "2^64 values, unbounded records; writes through unsafe pointers can hit neighbouring memory", "anchors": ["netlink/archival-record.go:SetBytesReceived", "netlink/archival-record.go:SetBytesSent", "netlink/archival-record.go:GetStats", "netlink/archival-record.go:Compare"]}
{"id": "C67", "title": "What Prometheus shows", "statement": "Loading the metrics does not panic, and no update panics because of its labels. After any history, the bucket with bound b of the histograms of rates counts the reports of at most b bits and the count field counts all reports; the sum field is exactly the number of bits reported as long as that is at most 2^56, and so the total of the bits sent or received when the last report was due and possible. Beyond 2^56 bits the sum can be wrong. The histograms of the numbers of connections count, for each bound, the rounds or dumps with at most that many connections.", "quantifier": "every history of rounds, environment and order of maps; every list of observations; every record decoded", "why_tests_cant": "counts and sums are float64: rounding shows only after long histories; registration panics depend on the whole set of names", "anchors": ["metrics/metrics.go:SendRateHistogram", "metrics/metrics.go:ReceiveRateHistogram", "metrics/metrics.go:CacheSizeHistogram", "metrics/metrics.go:ConnectionCountHistogram", "saver/saver.go:MessageSaverLoop", "cache/cache.go:EndCycle", "collector/socket-monitor_linux.go:OneType"]}
{"id": "C68", "title": "Compressors that fail, and compressors that hang", "statement": "The saver ignores the errors of its writers. For every history, schedule and fate of each zstd process: nothing panics, the saver decides the same as if all were well, every file holds at every moment a beginning of what it should, and every execution ends or gets stuck. A process that dies damages its own file only: all goroutines still finish, Done.Wait() returns, the other files are complete and this one is cut where the process died. A process that hangs, so that Write or Close does not return: Done.Wait() never returns; when nothing can move any more, each marshaller is inside such a call or has done all it was given (then the files it had to close are complete), and the saver has sent everything, or waits for a marshaller that is held up and whose channel is full, or is itself in the header of such a file. Files of other connections can stay incomplete (witness proved).", "quantifier": "every history, environment, schedule, number of marshallers, channel capacity, and every fate of every compressor", "why_tests_cant": "failures of processes at every byte combined with every schedule cannot be enumerated", "anchors": ["saver/saver.go:runMarshaller", "saver/saver.go:writeHeader", "saver/saver.go:queue", "saver/saver.go:Close", "zstd/zstd.go:NewWriter", "zstd/zstd.go:Close"]}
{"id": "C69", "title": "The mutex and the wait group of the event server", "statement": "For every schedule of the event server taken step by step (Lock, each access to the map of clients, Unlock, Add and Done): the map is read or written by one goroutine at a time, which holds the mutex, and does not change while clients are written to; nobody waits for a mutex they hold; only the holder releases it, and within a bounded number of its own steps; some goroutine can go on unless all have returned or wait for an event, a connection or the cancellation; after the cancellation all return within a bounded number of steps. What can be seen is exactly what the model with whole critical sections as single steps shows. Done never panics. When servingWG.Wait returns, Serve and the cleanup have returned, listener and channel are closed, and nothing is broadcast, written or added any more; it returns once all goroutines have returned. It can return while notifyClients has not even begun (witness proved).", "quantifier": "every schedule, every number of clients and events, every outcome of each write", "why_tests_cant": "a missing lock or a wait group miscounted shows in rare interleavings only", "anchors": ["eventsocket/server.go:addClient", "eventsocket/server.go:removeClient", "eventsocket/server.go:sendToAllListeners", "eventsocket/server.go:notifyClients", "eventsocket/server.go:Listen", "eventsocket/server.go:Serve"]}
{"id": "C70", "title": "The command line and the environment", "statement": "tcp-info takes each command line in exactly one way: flags with one or two dashes, with their value after '=' or in the next word (boolean flags: after '=' only), up to the end, '--' or the first word that is not a flag; what follows is ignored. It goes on exactly if all flags are known and have values they accept, exits with status 0 exactly if it meets -h or -help before anything wrong, and with status 2 otherwise. If it goes on, -reps, -trace, -output, -tcpinfo.eventsocket and -anonymize.ip have the value of their last occurrence, or if there is none of their environment variable, or else their defaults; -exclude-srcport and -exclude-dstip have all values between the commas of all their occurrences (or of the variable), and exactly the local connections and those named by them are left out. Every setting whose excluded ports and addresses contain no comma can be asked for on a command line. Numbers are the Go literals that fit an int64. A variable with a bad value does not stop tcp-info: REPS=ten means forever and a misspelt ANONYMIZE_IP means no anonymization; but it stops the example client, which goes on exactly if all variables have good values and a socket is named.", "quantifier": "every list of words, every environment and every set of flags of the libraries", "why_tests_cant": "infinitely many command lines; flag.Parse and os.Environ are global and run once per process", "anchors": ["main.go:main", "main.go:init", "cmd/example-eventsocket-client/main.go:main", "eventsocket/client.go:Filename"]}
{"id": "C71", "title": "What the files tell about addresses", "statement": "With -anonymize.ip=netblock (on the command line or in the environment) the saved files depend on the addresses of the connections only through their networks (the first 24 bits of an IPv4 address, the first 64 bits of an IPv6 address): if two machines report the same messages up to other hosts in the same networks, and the same connections are excluded, then both runs of tcp-info leave the same files, with the same names and contents, whatever the schedules; at every moment corresponding files have the same name and one is a beginning of the other. The anonymizer gives two addresses the same result exactly if they are in the same network. The same holds for every anonymizer that keeps lengths, for addresses it does not distinguish. It does not hold for what clients of the event socket receive, nor if a host is excluded and its neighbour is not (witnesses proved).", "quantifier": "every pair of runs, of message sequences, every schedule, every anonymizer that keeps the lengths", "why_tests_cant": "it compares two executions (noninterference); no single run can show it", "anchors": ["inetdiag/structs.go:Anonymize", "saver/saver.go:runMarshaller", "saver/saver.go:queue", "saver/saver.go:swapAndQueue", "netlink/archival-record.go:Compare", "main.go:main"]}
{"id": "C72", "title": "The files on disk", "statement": "For every schedule, compressor and former contents of the directory: if no connection is opened twice in a run then no path is used twice; and then, at every moment, the file at the path of a writer is what its compressor has put out so far, and once the writer is closed it is the compressed form of all that was written; when Done.Wait() has returned every file created is there and complete. Files at other paths stay as they were. Two runs use the same path only within one boot of one machine, for a connection seen by both, and on one day; so otherwise the files of a run outlive the next run. A path that is used again is emptied first, and becomes the file of the new writer alone if the former writers are closed. But a connection that is missing from one poll gets the same path again: what had been written is lost, and if the first compressor is still at work the file ends up as a mixture; and a restart on the same day empties the files of the connections that live on (witnesses proved).", "quantifier": "every history, environment, schedule, compressor and former contents of the directory, every pair of runs", "why_tests_cant": "the order of truncation, of the output of zstd processes and of Close depends on the schedule; collisions need reopened connections or restarts", "anchors": ["zstd/zstd.go:NewWriter", "zstd/zstd.go:Close", "saver/saver.go:Rotate", "saver/saver.go:endConn", "saver/saver.go:queue", "main.go:main"]}
{"id": "C73", "title": "From the command line and the kernel to the files on disk, and back", "statement": "For every command line and environment that tcp-info accepts, every sequence of kernel dumps, every schedule of the whole process with its event server and compressors, and every former contents of the output directory: when main has returned, every file it created is in the directory; decompressed it loads with snapshot.LoadAll, giving the metadata and then snapshots, each of which shows a message the kernel sent in one of the dumps, not excluded by the flags, with addresses as -anonymize.ip asks; nothing else in the directory has changed. Nothing is missing: every IPv4 or IPv6 record that is new or has changed since the poll before is shown by a snapshot of some file; in particular the first message about a connection that is not excluded. At every moment before, the file of a writer is what its compressor has put out, complete once closed. (Conditions: the machine and kernel behave as C39, C52 and C72 ask, no connection is opened twice, and for completeness no file operation fails. What is written but not yet put out by the compressor is lost when the process is killed.)", "quantifier": "every accepted command line, environment, kernel, schedule, compressor with an inverse, former contents of the directory", "why_tests_cant": "it joins flags, collector, saver, marshallers, JSON, compressor, directory and reader; each has unit tests of its own, and their composition is exercised on no more than a few connections", "anchors": ["main.go:main", "collector/collector_linux.go:Run", "saver/saver.go:MessageSaverLoop", "saver/saver.go:runMarshaller", "zstd/zstd.go:NewWriter", "snapshot/snapshot.go:LoadAll"]}
{"id": "C74", "title": "The table that csvtool prints", "statement": "What csvtool prints is a CSV table (RFC 4180) with one reading, whatever bytes are in the strings: a header, and one row for each snapshot, in order. Each row has a cell for every column: the time, the numbers in decimal, the addresses as text, the cookie in hexadecimal; the cells of the message header and of a structure of the kernel (tcp_info, meminfo, ...) are blank if the record does not have it, and otherwise hold the number at the field's offset. The table can be written exactly if all years have four digits. Two lists of snapshots with the same table are the same, but for the bytes of addresses with the same text. For the files of tcp-info: the metadata's row, then one row for each IPv4 or IPv6 record of the file. The columns are called by prefix and field, and no two alike, except two: LastAckRecv is in a second column TCP.LastDataRecv, and Sndbuf is called SKMemInfo.Sndbug (proved; so a reader that finds columns by name gets the wrong one).", "quantifier": "all lists of decoded snapshots, all strings in them, all zones, both readings of omitempty; all runs of the saver", "why_tests_cant": "105 columns made by reflection from tags in three packages; the test looks at three names and three cells of one file", "anchors": ["cmd/csvtool/main.go:toCSV", "snapshot/snapshot.go:Snapshot", "tcp/tcpinfo.go:LinuxTCPInfo", "inetdiag/structs.go:SocketMemInfo", "inetdiag/structs.go:InetDiagMsg", "inetdiag/structs.go:LinuxSockID"]}
{"id": "C75", "title": "The lines that are written, byte by byte", "statement": "Every line of a .jsonl file and of the event socket is one JSON object with fixed members in a fixed order and no white space: for a record Timestamp, RawIDM, Attributes and Metadata (the last three left out if empty), for an event Event, Timestamp, UUID and ID. []byte is the base64 of RFC 4648, with zero bits and '=' at the end, so each byte string has one text and each text one byte string. Times are those of RFC 3339: the local date and time of day, up to nine digits without zeros at the end, and the offset. Strings stand for the strings of the record with U+FFFD for each byte that is not UTF-8. A line of this form, whoever wrote it, is read as the record or event it stands for, so it stands for one only; and a record without metadata has one line. Every line is UTF-8 without control characters, '<', '>', '&', U+2028 and U+2029. At any moment each file of the saver is a beginning of the lines of its records, and in the end it is all of them; when main has returned, the files on disk, decompressed, are a line for the metadata with the UUID and number of the file's name, and lines for messages about that connection, with none missing for a new connection. A client of the event socket that has not failed has received, byte by byte, such lines for a segment of what the saver reports.", "quantifier": "all records and events, all strings and byte strings, all time zones; all runs of the saver", "why_tests_cant": "other programs (the ETL into BigQuery, jq, strict base64 decoders) read these lines; tests that write and read with the same library accept what strict readers refuse", "anchors": ["saver/saver.go:runMarshaller", "saver/saver.go:writeHeader", "netlink/archival-record.go:ArchivalRecord", "netlink/archival-record.go:Metadata", "eventsocket/server.go:sendToAllListeners", "eventsocket/server.go:FlowEvent"]}
{"id": "C76", "title": "From the kernel's messages to csvtool's table", "statement": "tcp-info runs with any accepted command line until main returns, and then csvtool is run on a file it left. The file is named for one connection and its name ends in .zst, so csvtool decompresses it; whatever the schedule of csvtool and its zstd process, it prints one and the same table and ends well (unless the zstd process fails): the header, the metadata's row, and rows each of which tells of one message about that connection that the kernel sent in a dump and that the command line did not exclude. Cell by cell: time of the dump; family, state, timer, retransmits, ports, interface, cookie, expiry, queues, UID and inode are the numbers at the kernel's offsets in the message; the addresses are those of the message after the chosen anonymization; every cell of tcp_info and the other structures is the number at the field's offset in the last attribute of that type, and blank if the message has none; the others likewise. If no file operation failed, every message of a new connection, and every record that is new or has changed, has its row in one of the files. The time zones of the two programs may differ.", "quantifier": "all command lines and environments, all kernels' answers, all schedules of both programs, all compressors with an inverse, all zones", "why_tests_cant": "no test runs both programs; a column filled from a neighbouring field or a record left out on the way changes numbers that nobody checks by hand", "anchors": ["main.go:main", "cmd/csvtool/main.go:main", "cmd/csvtool/main.go:toCSV", "saver/saver.go:runMarshaller", "snapshot/snapshot.go:Decode", "netlink/archival-record.go:MakeArchivalRecord", "zstd/zstd.go:NewReader"]}
{"id": "C77", "title": "A connection's files are its history", "statement": "Reading the files of one connection in the order of their numbers gives its history: the files are numbered 0, 1, 2 and so on (if it was opened once), and no other file that has appeared or changed in the directory bears its name; apart from the line of the metadata at the beginning of each, the lines of the files one after the other tell of the connection's reports that were new or had changed significantly since the poll before, in the order of the polls, each exactly once, none left out at the change from one file to the next and none of another connection; if a file operation failed, of a subsequence of these. The same holds for the rows that csvtool makes of the files. A connection that is missing from a poll and comes back starts from number 0 again.", "quantifier": "every accepted command line, environment, sequence of kernel dumps, clock, schedule and connection", "why_tests_cant": "a report lost, doubled or out of order at a change of files, or put in the file of another connection, shows only with several files per connection, i.e. after ten minutes and under some schedules", "anchors": ["saver/saver.go:queue", "saver/saver.go:Rotate", "saver/saver.go:endConn", "saver/saver.go:swapAndQueue", "saver/saver.go:runMarshaller", "saver/saver.go:MessageSaverLoop", "cmd/csvtool/main.go:main"]}
{"id": "C78", "title": "The event server catches up", "statement": "From every state the event server can get into before its context is cancelled: if nobody submits events or connects any more, the server makes at most a fixed number of steps, and can always make one until it has caught up. Then all events submitted that can be written as a line have been broadcast, in order; every connection accepted has been registered; each client to which no write failed has received exactly the lines of the at most 101 events that were on their way when it was registered followed by those of all events submitted since; each client to which a write failed is no longer registered and has been hung up on; and the server is waiting for the next connection.", "quantifier": "every reachable state, every schedule of the server's goroutines and of their failures", "why_tests_cant": "that no event, client or goroutine gets stuck is a statement about all schedules; tests see those the scheduler happens to choose", "anchors": ["eventsocket/server.go:notifyClients", "eventsocket/server.go:sendToAllListeners", "eventsocket/server.go:addClient", "eventsocket/server.go:removeClient", "eventsocket/server.go:Serve"]}
{"id": "C79", "title": "Between two polls everything queued is written", "statement": "From every state the saver and its marshallers can get into, for polls that can be parsed: while no further poll arrives they make finitely many steps whatever the schedule, and some step is possible until they are at rest. At rest the saver's state is that of a run over the polls received so far, and what has been written to each file's writer (the pipe to its compressor) is, byte for byte, what would have been written had the program been shut down after those polls: a file exists exactly if that run created it, and every record which that run queued and whose addresses can be anonymized has been written to its file as a complete line. Nothing waits for a later poll or for the shutdown, which only closes files. At every moment, at rest or not, each marshaller has at most one task more than its channel has places that the saver has handed over and that are not finished, and the lines of all other tasks have been written. In the whole process the same holds while the collector waits for its next tick: until ctx is done, saver and marshallers can go on (the event server making room for events) until every poll sent has been received and written. On disk a closed file is then complete; an open file is there only as far as its compressor has put it out, which may be nothing until Close.", "quantifier": "every sequence of polls, every world, every number of marshallers and channel capacity of at least one, every schedule, every reachable state", "why_tests_cant": "whether a record can stay behind in a channel or a goroutine until more input arrives is a statement about all schedules; tests look at the files after the shutdown", "anchors": ["saver/saver.go:runMarshaller", "saver/saver.go:MessageSaverLoop", "saver/saver.go:queue", "saver/saver.go:endConn", "saver/saver.go:Close", "main.go:main", "collector/collector_linux.go:Run", "zstd/zstd.go:NewWriter"]}
{"id": "C80", "title": "A closed file is final", "statement": "While tcp-info runs, a file whose connection has ended or that has been rotated out is closed, and from that moment other programs may read it. At every moment of every run, for every file that has been closed by then: its lines are the metadata and every record the saver has queued on it, none missing at the end; on disk, under its name, is the compressed form of exactly these lines, and it stays so however the run goes on, whatever later polls bring and whether the process is stopped or not; and decompressed it loads, the metadata first and then snapshots each of which shows a message that the kernel sent and the command line did not exclude, with the addresses as chosen. (Provided no file name is used twice in the run.)", "quantifier": "all command lines, kernels' answers, schedules, moments of the run and ways it goes on, all files closed at that moment, all compressors with an inverse, all readers", "why_tests_cant": "tests look at files after the program has ended; a line or compressor output that arrives after Close, or a later file that touches an earlier one, depends on the schedule", "anchors": ["saver/saver.go:runMarshaller", "saver/saver.go:Rotate", "saver/saver.go:endConn", "zstd/zstd.go:NewWriter", "main.go:main", "snapshot/snapshot.go:LoadAll"]}
