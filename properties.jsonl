{"id": "C01", "title": "Decimal round trip", "statement": "Every int64 written with WriteDecimal is read back unchanged by ReadDecimal, which consumes exactly the bytes that were written and leaves whatever follows untouched; WriteDecimal32 produces the same bytes as WriteDecimal, and no shorter length class could hold the value.", "quantifier": "all int64 values and all following bytes", "why_tests_cant": "2^64 values and arbitrary trailing data; width boundaries and signs interact", "anchors": ["scouterx/common/netdata/dataoutputx.go:WriteDecimal", "scouterx/common/netdata/dataoutputx.go:WriteDecimal32", "scouterx/common/netdata/datainputx.go:ReadDecimal"]}
{"id": "C02", "title": "Fixed width integers are big-endian and survive any segmentation", "statement": "A value written with WriteInt8/16/32/64 (or WriteUInt8) is read back by the matching Read call no matter how the transport splits the bytes into read segments, and the bytes are the big-endian two's-complement encoding.", "quantifier": "all values of each width, all segmentations of the byte stream", "why_tests_cant": "segmentation of a TCP stream is an unbounded nondeterministic choice", "anchors": ["scouterx/common/netdata/dataoutputx.go:WriteInt32", "scouterx/common/netdata/datainputx.go:ReadInt32"]}
{"id": "C03", "title": "Blob and string round trip through the agent's own reader", "statement": "A byte array written with WriteBlob is returned unchanged by ReadBlob.", "quantifier": "all byte arrays below 2^31 bytes, any trailing bytes", "why_tests_cant": "length classes span 2^31 lengths; the faulty class needs 32 KiB inputs", "anchors": ["scouterx/common/netdata/dataoutputx.go:WriteBlob", "scouterx/common/netdata/datainputx.go:ReadBlob"]}
{"id": "C04", "title": "Blob encoding is decodable by a collector", "statement": "The bytes produced by WriteBlob determine the array: a reader that treats the two-byte length as unsigned recovers exactly the array and the remaining bytes.", "quantifier": "all byte arrays below 2^31 bytes, any trailing bytes", "why_tests_cant": "unbounded lengths", "anchors": ["scouterx/common/netdata/dataoutputx.go:WriteBlob"]}
{"id": "C05", "title": "String truncation rule", "statement": "WriteString encodes the exact bytes of any string of at most 100000 bytes, and the fixed placeholder text for any longer string; nothing else is ever written.", "quantifier": "all strings", "why_tests_cant": "unbounded lengths, boundary at 100000", "anchors": ["scouterx/common/netdata/dataoutputx.go:WriteString"]}
{"id": "C06", "title": "Value trees round trip", "statement": "For every value tree built from nil, boolean, decimal, float, double, text, text hash, blob, list and map values, WriteValue followed by ReadValue returns an equal tree whatever order Go iterates the maps in, and consumes exactly the written bytes.", "quantifier": "all finite value trees (any depth, any width), all map iteration orders", "why_tests_cant": "unbounded trees; random map order", "anchors": ["scouterx/common/netdata/dataoutputx.go:WriteValue", "scouterx/common/netdata/datainputx.go:ReadValue", "scouterx/common/netdata/mapvalue.go", "scouterx/common/netdata/listvalue.go", "scouterx/common/netdata/valuecreator.go:CreateValue"]}
{"id": "C07", "title": "IPv4 values round trip", "statement": "An Ip4Value written with WriteValue is read back by ReadValue as the same address.", "quantifier": "all IPv4 addresses", "why_tests_cant": "2^32 addresses; the reader creates a different value type", "anchors": ["scouterx/common/netdata/ip4value.go", "scouterx/common/netdata/valuecreator.go:CreateValue"]}
{"id": "C08", "title": "Decoding malformed input is safe", "statement": "ReadValue applied to arbitrary bytes terminates, never panics, and reports an error when the input ended before the value was complete.", "quantifier": "all byte strings", "why_tests_cant": "arbitrary network input", "anchors": ["scouterx/common/netdata/datainputx.go:ReadValue", "scouterx/common/netdata/datainputx.go:ReadBlob"]}
{"id": "C09", "title": "Written size equals produced bytes", "statement": "After any sequence of writer calls on a fresh in-memory DataOutputX, GetWriteSize/Size equals the length of Bytes (as an int32), and Bytes only ever grows by appending.", "quantifier": "all sequences of writer calls", "why_tests_cant": "unbounded call histories", "anchors": ["scouterx/common/netdata/dataoutputx.go:GetWriteSize", "scouterx/common/netdata/dataoutputx.go:Bytes"]}
{"id": "C10", "title": "Readable packs round trip", "statement": "MapPack, PerfCounterPack, PerfCounterK8SPack and ObjectPack2 written with Write are restored field by field by their own Read.", "quantifier": "all field values and all map contents", "why_tests_cant": "unbounded field contents", "anchors": ["scouterx/common/netdata/mappack.go", "scouterx/common/netdata/perfcounterpack.go", "scouterx/common/netdata/perfcounter_k8s_pack.go", "scouterx/common/netdata/objectpack.go"]}
{"id": "C11", "title": "Every emitted pack is decodable field by field", "statement": "The bytes of WritePack for text, xlog, profile, alert, object, perf-counter and map packs can be parsed by a collector back to the exact field values, with nothing left over.", "quantifier": "all field values", "why_tests_cant": "40+ variable-width fields; ambiguity only shows for particular combinations", "anchors": ["scouterx/common/netdata/xlogpack.go", "scouterx/common/netdata/textpack.go", "scouterx/common/netdata/alertpack.go", "scouterx/common/netdata/xlogprofilepack.go", "scouterx/common/netdata/objectpack.go"]}
{"id": "C12", "title": "ReadPack inverts WritePack", "statement": "ReadPack on the bytes produced by WritePack returns the same pack for every pack type the agent can write.", "quantifier": "all pack values", "why_tests_cant": "depends on the whole type dispatch and on data", "anchors": ["scouterx/common/netdata/datainputx.go:ReadPack", "scouterx/common/netdata/packcreator.go:CreatePack"]}
{"id": "C13", "title": "Step streams are decodable in order", "statement": "StepsToBytes of any list of steps (nil entries skipped) can be parsed back by step type to exactly the same steps in the same order, and concatenating two encoded lists encodes the concatenation.", "quantifier": "all step lists", "why_tests_cant": "unbounded lists and field values", "anchors": ["scouterx/common/netdata/step.go:StepsToBytes", "scouterx/common/netdata/methodstep.go", "scouterx/common/netdata/apicallstep.go", "scouterx/common/netdata/dumpstep.go", "scouterx/common/netdata/pmessagestep.go", "scouterx/common/netdata/hmessagestep.go", "scouterx/common/netdata/messagestep.go", "scouterx/common/netdata/threadstep.go"]}
{"id": "C14", "title": "Parameterised message parameters survive", "statement": "The parameter list given to PMessageStep.SetMessage is recoverable from the encoded parameter string.", "quantifier": "all parameter lists", "why_tests_cant": "unbounded lists of strings, delimiter clashes", "anchors": ["scouterx/common/netdata/pmessagestep.go:SetMessage"]}
{"id": "C15", "title": "Map and list accessors", "statement": "Put followed by Get on the same key returns the stored value (converted to the getter's width), other keys are unaffected, and list getters return what was appended at that index; this includes ObjectPack.SetStatus.", "quantifier": "all keys, values, maps and lists", "why_tests_cant": "unbounded maps; type dispatch", "anchors": ["scouterx/common/netdata/mapvalue.go:Put", "scouterx/common/netdata/mappack.go:Put", "scouterx/common/netdata/listvalue.go", "scouterx/common/netdata/objectpack.go:SetStatus"]}
{"id": "C16", "title": "HashString is CRC-32", "statement": "HashString of every string equals the IEEE CRC-32 of its bytes reinterpreted as int32, and never indexes outside its table.", "quantifier": "all strings", "why_tests_cant": "unbounded strings; a table slip shows only for some bytes", "anchors": ["scouterx/common/util/hashutil.go:HashString", "scouterx/common/util/hashutil.go:table"]}
{"id": "C17", "title": "Text hashes identify texts", "statement": "Two different non-empty texts sent by the agent never share a hash, and no non-empty text has the hash 0 that the agent uses for 'absent'.", "quantifier": "all pairs of texts", "why_tests_cant": "needs a search over 2^32 hashes", "anchors": ["scouterx/netio/dataproxy.go:SendError", "scouterx/common/util/hashutil.go"]}
{"id": "C18", "title": "Base-32 transaction id strings", "statement": "IntToXlogString32 is injective on int64 and its output decodes back to the number.", "quantifier": "all int64 values", "why_tests_cant": "2^64 values including the most negative one", "anchors": ["scouterx/common/util/hexautil.go:IntToXlogString32"]}
{"id": "C19", "title": "IpToBytes", "statement": "IpToBytes always returns four bytes: the octets of a dotted-quad decimal address, and 0.0.0.0 for anything else.", "quantifier": "all strings", "why_tests_cant": "unbounded malformed inputs", "anchors": ["scouterx/common/util/iputil.go:IpToBytes"]}
{"id": "C20", "title": "Durations and elapsed times", "statement": "GetDuration splits a non-negative number of seconds into days, hours, minutes and seconds that sum to it with each part in range; MillisBetween is the exact elapsed milliseconds.", "quantifier": "all durations", "why_tests_cant": "overflow after 24.8 days cannot be waited for", "anchors": ["scouterx/common/util/timeutil.go"]}
{"id": "C21", "title": "Wildcard patterns", "statement": "NewStrMatch(pattern) matches a non-empty target exactly when '*' in the pattern stands for any (possibly empty) run of characters.", "quantifier": "all patterns and targets", "why_tests_cant": "unbounded strings; overlaps between fixed parts", "anchors": ["scouterx/common/util/strmatch.go:NewStrMatch", "scouterx/common/util/strmatch.go:include"]}
{"id": "C22", "title": "Comma separated pattern lists", "statement": "A comma separated pattern list matches a service name exactly when one of its patterns matches it.", "quantifier": "all pattern lists and names", "why_tests_cant": "all configurations", "anchors": ["scouterx/common/util/strmatch.go:NewCommaSeparatedChainedStrMatcher", "scouterx/common/util/strmatch.go:IsMatch"]}
{"id": "C23", "title": "Bounded cache never exceeds its capacity", "statement": "After any sequence of operations an lra cache created with a positive capacity holds at most that many entries and at most one entry per key; capacity 0 means unbounded.", "quantifier": "all operation sequences, capacities, keys", "why_tests_cant": "unbounded histories", "anchors": ["scouterx/common/structure/lra/lra.go:Add"]}
{"id": "C24", "title": "Bounded cache lookups", "statement": "Get returns the value most recently added for a key that is still present and nil otherwise; Contains, Size, Empty and GetValues agree with it.", "quantifier": "all operation sequences", "why_tests_cant": "unbounded histories", "anchors": ["scouterx/common/structure/lra/lra.go:Get", "scouterx/common/structure/lra/lra.go:GetValues"]}
{"id": "C25", "title": "Eviction is first-in first-out and reported once", "statement": "When a new key exceeds the capacity exactly the entry that was inserted first is evicted, re-adding a present key does not change its age, and OnEvicted is called exactly once for each entry that leaves the cache.", "quantifier": "all operation sequences", "why_tests_cant": "unbounded histories", "anchors": ["scouterx/common/structure/lra/lra.go:removeOldest", "scouterx/common/structure/lra/lra.go:removeElement", "scouterx/common/structure/lra/lra.go:Clear"]}
{"id": "C26", "title": "cachemap and cacheset are bounded FIFO containers", "statement": "cachemap and cacheset with positive capacity never exceed it, evict the oldest inserted key only, and never change the value or position of a key that is already present.", "quantifier": "all operation sequences, capacities", "why_tests_cant": "unbounded histories", "anchors": ["scouterx/common/structure/cachemap/cachemap.go", "scouterx/common/structure/cacheset/cacheset.go"]}
{"id": "C27", "title": "cachemap2 is a bounded FIFO map", "statement": "cachemap2 behaves as the same bounded FIFO map as cachemap, including after Remove, and Add always returns.", "quantifier": "all operation sequences", "why_tests_cant": "needs particular remove/re-add histories", "anchors": ["scouterx/common/structure/cachemap2/cachemap2.go"]}
{"id": "C28", "title": "Cache operations cannot deadlock", "statement": "No schedule of concurrent cache calls can block forever.", "quantifier": "all schedules of concurrent callers", "why_tests_cant": "schedules", "anchors": ["scouterx/common/structure/lra/lra.go:Empty", "scouterx/common/structure/lra/lra.go:Size"]}
{"id": "C29", "title": "Large packs are fragmented losslessly", "statement": "A buffer longer than the UDP limit is sent as numbered fragments, each at most the limit, from which the original bytes can be reassembled in any arrival order, with total equal to the number of fragments.", "quantifier": "all buffers, all positive packet sizes, all arrival orders", "why_tests_cant": "unbounded sizes, permutations", "anchors": ["scouterx/netio/udpclient/udpclient.go:writeMTU"]}
{"id": "C30", "title": "Buffer lists are delivered exactly once", "statement": "WriteBufferList puts every buffer of the list into exactly one datagram (or one fragment group), with a correct count, and keeps their order when none is oversized.", "quantifier": "all lists of buffers, all limits", "why_tests_cant": "unbounded lists and sizes", "anchors": ["scouterx/netio/udpclient/udpclient.go:WriteBufferList"]}
{"id": "C31", "title": "Queued packs reach the socket exactly once in order", "statement": "Every pack accepted by AddPack is written to the socket exactly once and in acceptance order (when not oversized); a pack is dropped only when the queue is full.", "quantifier": "all interleavings of producers with the sender loop", "why_tests_cant": "schedules and unbounded histories", "anchors": ["scouterx/netio/udpsender/udpsender.go:AddPack", "scouterx/netio/udpsender/udpsender.go:run", "scouterx/netio/udpsender/udpsender.go:send"]}
{"id": "C32", "title": "Datagram size bound", "statement": "No datagram written by the client exceeds the configured limit by more than the fixed header.", "quantifier": "all buffers and lists", "why_tests_cant": "unbounded", "anchors": ["scouterx/netio/udpclient/udpclient.go"]}
{"id": "C33", "title": "Metering windows are exact", "statement": "With a clock that never goes back, the counters returned for a period of p seconds (p capped at 300) are exactly the sums of the additions made in the last p seconds including the current one.", "quantifier": "all histories of additions and queries at any times", "why_tests_cant": "unbounded histories; ring wrap-around after 301 s", "anchors": ["scouterx/counter/metering.go", "scouterx/counter/serviceMetering.go", "scouterx/counter/valueMetering.go"]}
{"id": "C34", "title": "Rates are sane", "statement": "The reported error rate is between 0 and 100 percent and the mean elapsed time lies between the smallest and largest elapsed time in the window.", "quantifier": "all histories", "why_tests_cant": "unbounded histories", "anchors": ["scouterx/counter/serviceMetering.go:GetAllCounter"]}
{"id": "C35", "title": "Clock steps do not corrupt counters", "statement": "If the system clock is set back, counters never include additions older than the window.", "quantifier": "all clock histories", "why_tests_cant": "clock adjustments", "anchors": ["scouterx/counter/metering.go:getPosition"]}
{"id": "C36", "title": "Counters are published under their own names", "statement": "The value published as GoTPS is the transactions-per-second counter and the one published as GoErrorRate is the error rate.", "quantifier": "all counter values", "why_tests_cant": "needs end-to-end observation", "anchors": ["scouterx/task/countertask/countertask.go", "scouterx/counter/collector.go:SendServiceCounter"]}
{"id": "C37", "title": "No profile step is lost, duplicated or reordered", "statement": "For a trace that ends with its profile kept, the steps sent in profile packs are exactly the finished steps in the order they finished.", "quantifier": "all sequences of profile operations, all buffer and batch sizes", "why_tests_cant": "unbounded histories, buffer boundaries", "anchors": ["scouterx/netio/profilecollector.go", "scouterx/netio/dataproxy.go:SendProfile"]}
{"id": "C38", "title": "Profile nesting", "statement": "Step indices are distinct and increase in start order; a step started while a method is open has that method's index as parent, and closing restores the enclosing parent; no step is its own parent.", "quantifier": "all well-nested sequences of profile operations", "why_tests_cant": "unbounded nesting", "anchors": ["scouterx/netio/profilecollector.go:Push", "scouterx/netio/profilecollector.go:Pop", "scouterx/netio/profilecollector.go:Add"]}
{"id": "C39", "title": "Profile batches are bounded", "statement": "Each profile pack carries at most profile_step_max_count steps and at least one.", "quantifier": "all step lists and batch sizes", "why_tests_cant": "unbounded", "anchors": ["scouterx/netio/dataproxy.go:SendProfile"]}
{"id": "C40", "title": "XLog profile counts", "statement": "The ProfileCount and ProfileSize of the emitted xlog equal the number of profile steps and bytes sent for the transaction.", "quantifier": "all traces", "why_tests_cant": "depends on the history of the trace", "anchors": ["scouterx/netio/tracecontext.go:ToXlog", "scouterx/strace/tracemain.go:endAnyServiceOfTraceContext"]}
{"id": "C41", "title": "A service ends exactly once", "statement": "However many times and from however many goroutines a service is ended (EndService, EndHttpService, stuck-service removal), it contributes exactly one xlog decision and one metering sample.", "quantifier": "all sequences and interleavings of end calls", "why_tests_cant": "schedules", "anchors": ["scouterx/strace/tracemain.go:endAnyServiceOfTraceContext"]}
{"id": "C42", "title": "The active service list is exact", "statement": "While fewer than 10000 services are active, a transaction is found by its txid exactly from its start to its end.", "quantifier": "all histories of starts and ends", "why_tests_cant": "unbounded histories", "anchors": ["scouterx/strace/tctxmanager/tctxmanager.go", "scouterx/strace/tracemain.go:startService"]}
{"id": "C43", "title": "Global transaction id propagation", "statement": "Every goroutine service started (transitively) under a service carries the gxid of the root and its direct parent's txid as caller.", "quantifier": "all spawn trees", "why_tests_cant": "unbounded trees", "anchors": ["scouterx/strace/tracemain.go:startChildGoroutineService"]}
{"id": "C44", "title": "Failed transactions are never sampled away", "statement": "A transaction with an error is always sent with its profile, whatever the sampling configuration, elapsed time and random draw.", "quantifier": "all configurations, names, elapsed times, random draws", "why_tests_cant": "randomness and configuration space", "anchors": ["scouterx/strace/tracemain.go:findXLogDiscard"]}
{"id": "C45", "title": "Sampling rates", "statement": "With sampling enabled the step chosen by elapsed time keeps a transaction for exactly its configured percentage of the random outcomes: 100 or more keeps all, 0 or less keeps none; disabled sampling keeps all.", "quantifier": "all configurations, elapsed times and random draws", "why_tests_cant": "randomness", "anchors": ["scouterx/strace/xlogsampler.go:sampling4Elapsed", "scouterx/strace/xlogsampler.go:eEvaluateXLogDiscard"]}
{"id": "C46", "title": "XLog sending rule", "statement": "An xlog is sent unless its discard type is ALL_FORCE, or ALL on a driving transaction; profiles are flushed at the end only for discard type NONE.", "quantifier": "all end-of-service states", "why_tests_cant": "state space", "anchors": ["scouterx/strace/tracemain.go:endAnyServiceOfTraceContext"]}
{"id": "C47", "title": "Configured service patterns take effect", "statement": "A service matching xlog_discard_service_patterns is discarded (unless in error), one matching xlog_sampling_exclude_patterns is never sampled away, and xlog_discard_service_show_error=false suppresses discarded services even when in error.", "quantifier": "all configurations and service names", "why_tests_cant": "configuration space", "anchors": ["scouterx/strace/xlogsampler.go", "scouterx/strace/tracemain.go:findXLogDiscard", "scouterx/conf/configure.go:XlogDiscardServiceShowError"]}
{"id": "C48", "title": "Untraced contexts are inert", "statement": "Calling any tracing function with a nil context or one without a trace changes nothing and sends nothing; StartService never returns nil and is idempotent on a traced context.", "quantifier": "all calls and contexts", "why_tests_cant": "API surface times state", "anchors": ["scouterx/strace/tracemain.go"]}
{"id": "C49", "title": "Stuck services are removed", "statement": "A service running longer than the stuck threshold when active services are counted is closed with an error and leaves the active list; others are untouched; active counts add up.", "quantifier": "all active sets, clock values and thresholds", "why_tests_cant": "long-running time", "anchors": ["scouterx/strace/tctxmanager/tctxmanager.go:GetActiveCount", "scouterx/strace/tracemain.go:endStuckServiceForcibly"]}
{"id": "C50", "title": "Traced goroutines always run", "statement": "GoWithTrace runs the user's function whatever the agent configuration.", "quantifier": "all configurations", "why_tests_cant": "configuration space", "anchors": ["scouterx/strace/tracemain.go:GoWithTrace", "scouterx/netio/profilecollector.go:NewProfileCollector"]}
{"id": "C51", "title": "Every hash refers to a text that was sent", "statement": "Whenever a Send* function returns a non-zero hash, a text pack with that hash and type has been queued since the last cache reset, and a text still remembered is not queued again.", "quantifier": "all sequences of sends and resets", "why_tests_cant": "unbounded histories", "anchors": ["scouterx/netio/dataproxy.go"]}
{"id": "C52", "title": "Concurrent text sends are at-least-once", "statement": "Under any interleaving of concurrent Send* calls, a text pack for a returned hash has been queued or is about to be queued by a caller still inside the call.", "quantifier": "all interleavings", "why_tests_cant": "schedules", "anchors": ["scouterx/netio/dataproxy.go:SendServiceName"]}
{"id": "C53", "title": "TCP responses are correctly framed", "statement": "Each command response parses as a (possibly empty) sequence of HasNEXT-flagged items followed by NoNEXT.", "quantifier": "all commands and results", "why_tests_cant": "all results", "anchors": ["scouterx/netio/tcpclient/tcpclient.go:Process"]}
{"id": "C54", "title": "TCP requests are read whole", "statement": "A command frame sent by the collector is processed identically however TCP segments it.", "quantifier": "all frames and segmentations", "why_tests_cant": "segmentation nondeterminism", "anchors": ["scouterx/netio/tcpclient/tcpclient.go:Process", "scouterx/common/netdata/datainputx.go:ReadIntBytes"]}
{"id": "C55", "title": "Reconnect back-off", "statement": "Reconnection delays are between 3 s and 60 s and double after each consecutive failure.", "quantifier": "all failure histories", "why_tests_cant": "long histories", "anchors": ["scouterx/netio/tcpclient/tcpmanager.go:startTcp"]}
{"id": "C56", "title": "Active list response columns agree", "statement": "All columns of the active-service response have the same length, one row per active transaction.", "quantifier": "all active sets", "why_tests_cant": "all states", "anchors": ["scouterx/netio/tcpclient/handlers.go:GetActiveList"]}
{"id": "C57", "title": "Dump downloads are complete", "statement": "The blobs streamed for a dump download concatenate to exactly the file contents, each flagged HasNEXT, for every file size.", "quantifier": "all files", "why_tests_cant": "all sizes, chunk boundaries", "anchors": ["scouterx/dump/dump.go:DownloadBinaryDumpFiles", "scouterx/dump/dump.go:StreamDumpFileContents"]}
{"id": "C58", "title": "Dump commands stay inside the dump directory", "statement": "The file opened or deleted for a dump command lies inside the agent's dump directory.", "quantifier": "all requested file names", "why_tests_cant": "all strings", "anchors": ["scouterx/dump/dump.go:DeleteBinaryDumpFiles", "scouterx/dump/dump.go:StreamDumpFileContents"]}
{"id": "C59", "title": "Configuration precedence", "statement": "After a refresh each setting has the non-empty value from the file, else from the environment, else its default.", "quantifier": "all files and environments", "why_tests_cant": "unbounded inputs", "anchors": ["scouterx/conf/configure.go:Refresh"]}
{"id": "C60", "title": "Configuration changes are noticed", "statement": "After the file is modified the next refresh applies its contents and notifies the sampler, whose matchers then correspond to the current patterns.", "quantifier": "all edit histories", "why_tests_cant": "timestamp histories", "anchors": ["scouterx/conf/configure.go:Refresh", "scouterx/strace/xlogsampler.go:Run"]}
{"id": "C61", "title": "Save-configuration result", "statement": "The SET_CONFIGURE_WAS response tells through its boolean 'result' whether the file was saved.", "quantifier": "all saves", "why_tests_cant": "all outcomes", "anchors": ["scouterx/netio/tcpclient/handlers.go:saveConfig"]}
{"id": "C62", "title": "Environment values are taken verbatim", "statement": "An environment variable KEY=VALUE sets property KEY to VALUE.", "quantifier": "all environment entries", "why_tests_cant": "all strings", "anchors": ["scouterx/conf/configure.go:Refresh"]}
{"id": "C63", "title": "XLog contents", "statement": "For every history of tracing calls with sensible arguments: every call returns what the documented effect of the calls before it implies, and each ended service produces exactly one response-time sample and at most one xlog whose fields (service name hash, transaction id, global id, caller, elapsed time, error, remote address, status, user id, user agent, referer, API call count and total time, type, login, description, texts 1-5, object hash) are those given by the calls made on that service up to its end: the last name set, the first error, the sum of API call times, and so on; inherited services take over the fields of their parent. When every count that may end stuck services sees all running services (distinct transaction ids, at most 10000 running so far, at most 2000 when counting), it marks, ends and reports exactly the services that have run too long, so the accounts of the whole history are determined.", "quantifier": "all histories of API calls over any number of services, all arguments, clock readings, keys, configurations with positive profile limits", "why_tests_cant": "the claim ranges over all interleavings of calls on all services; a test checks one history", "anchors": ["scouterx/strace/tracemain.go", "scouterx/netio/tracecontext.go", "scouterx/common/netdata/xlogpack.go"]}
{"id": "C64", "title": "The agent never harms the application", "statement": "In any history of API calls with non-nil requests and steps and positive profile sizes, no call panics inside the agent (no Panic alert is sent) and every call returns; whatever the arguments and settings, a panic inside the agent never reaches the caller.", "quantifier": "all histories of API calls, all configurations and clock values", "why_tests_cant": "unbounded histories; all argument and state combinations", "anchors": ["scouterx/strace/tracemain.go", "scouterx/common/panic.go:ReportScouterPanic", "scouterx/netio/profilecollector.go"]}
{"id": "C65", "title": "Dump files are complete", "statement": "A thread dump, block profile or mutex profile file written by the agent contains everything the Go runtime produced for it.", "quantifier": "all sequences of writes the profiler makes, of any sizes", "why_tests_cant": "Depends on dump size versus buffer size; a test sees one size.", "anchors": ["scouterx/dump/dump.go:heavyAllStackTrace,profileBlock,profileMutex"]}
{"id": "C66", "title": "Listed dumps can be fetched", "statement": "The dump listings have one row per dump file with equally long columns, and each listed (or just triggered) dump can be fetched whole by the name the agent reported for it.", "quantifier": "all file systems, directories, file names and contents", "why_tests_cant": "Ranges over every directory content and name; nested files and returned full paths break it.", "anchors": ["scouterx/dump/dump.go:ListDumpFiles,ListBinaryDumpFiles,StreamDumpFileContents,DownloadBinaryDumpFiles,HeavyAllStackTrace"]}
{"id": "C67", "title": "Settings shown to the collector are those in force", "statement": "Whenever settings have been loaded, the description table behind LIST_CONFIGURE_WAS, CONFIGURE_VALUE_TYPE and CONFIGURE_DESC has exactly one entry per setting, showing the value in force, its default, description and type.", "quantifier": "all histories of refreshes over all files and environments", "why_tests_cant": "Depends on the whole reload history and every value text.", "anchors": ["scouterx/conf/configure.go:boolOf,intOf,stringOf,stringOfType,GetConfigureDescMap", "scouterx/netio/tcpclient/handlers.go:listConfig"]}
{"id": "C68", "title": "The command connection follows the configuration", "statement": "A command session is opened to the collector address configured at that moment and announces the agent's object hash; once the configured object, address or port differs, no further command is read from the old connection.", "quantifier": "all interleavings of configuration reloads with the session's commands", "why_tests_cant": "Depends on where a reload falls between dialling, starting the session and each command.", "anchors": ["scouterx/netio/tcpclient/tcpclient.go:Prepare,Process"]}
{"id": "C69", "title": "Configuration text round trip", "statement": "After a successful SET_CONFIGURE_WAS, GET_CONFIGURE_WAS returns exactly the text that was set; no other command changes the configuration file or settings.", "quantifier": "all texts, states and commands", "why_tests_cant": "Ranges over every text and every command in every state.", "anchors": ["scouterx/netio/tcpclient/handlers.go:loadConfig,saveConfig,handle", "scouterx/conf/exthandler.go:LoadConfigText,SaveConfigText"]}
{"id": "C70", "title": "Thread detail describes the running transaction", "statement": "OBJECT_THREAD_DETAIL for a transaction id reports the service name, goroutine, elapsed time and last method of the running service with that id, and reports the end if there is none.", "quantifier": "all histories of tracing calls and ids", "why_tests_cant": "Depends on the whole history of starts and ends.", "anchors": ["scouterx/netio/tcpclient/handlers.go:GetGoroutineDetail", "scouterx/strace/tctxmanager/tctxmanager.go:GetTraceContext"]}
{"id": "C72", "title": "Profile contents", "statement": "When a service whose profile is kept by the sampler ends, decoding the profile packs sent for it gives exactly the steps its calls produced (messages, hashed and parameterised messages, methods, API calls, asynchronous calls), each once, in the order in which they finished, with their texts, times, elapsed times and errors. A service that the stuck check ends sends the same, whatever the sampler thinks, followed by one message of level error that says it was ended.", "quantifier": "all histories, all services in them that run, all ways to end them", "why_tests_cant": "needs every history and every batching of the profile", "anchors": ["scouterx/strace/tracemain.go", "scouterx/netio/profilecollector.go"]}
{"id": "C73", "title": "Propagation headers", "statement": "StartApiCallWithPropagation adds headers with the base-32 global id and transaction id that the xlog of the calling service has when it ends, the id of the call, and the object hash of the agent in decimal; the API call step in the profile carries the same call id, also after it was ended.", "quantifier": "all histories before and after the call", "why_tests_cant": "the ids in the headers must agree with packs sent at any later time after any other calls", "anchors": ["scouterx/strace/tracemain.go:StartApiCallWithPropagation"]}
{"id": "C74", "title": "Traced goroutines appear in the parent's profile", "statement": "GoWithTrace puts an asynchronous step into the profile of the parent whose transaction id is that of the xlog of the goroutine's own service, which in turn names the parent as caller and has the parent's global id.", "quantifier": "all histories before and after the call", "why_tests_cant": "relates packs sent at different times after arbitrary other calls", "anchors": ["scouterx/strace/tracemain.go:GoWithTrace"]}
{"id": "C75", "title": "Concurrent metering", "statement": "Whatever the interleaving of goroutines that end services (metering Add) and tasks that read the counters: every sample is recorded exactly once, under the second its call entered the meter, and windows read when nobody is adding are exact; a read that overlaps calls of Add reports sums between those before it started and those when it ended. (Refuted: the error rate stays at or below 100 percent during concurrent adds; a call stalled for 301 seconds is still counted under its own second.)", "quantifier": "all interleavings of any number of adding and reading goroutines at field granularity, all clock readings", "why_tests_cant": "quantifies over schedules and times", "anchors": ["scouterx/counter/serviceMetering.go:Add", "scouterx/counter/serviceMetering.go:GetAllCounter", "scouterx/counter/metering.go:getPosition"]}
{"id": "C71", "title": "Profiling jobs leave the process as they found it and keep to their own files", "statement": "Block, mutex and CPU profiles requested by the collector may overlap: when all are over, the run-time profiling settings are those from before; while a job profiles, the rate it asked for is in force; CPU profiles of the agent and of the application exclude each other; the file of a finished job holds exactly its profile. (Refuted: overlapping mutex jobs leave a job's rate behind for ever; the application's block rate is not put back; the block job that ends first switches the other off; the same command twice within a second overwrites the first file.)", "quantifier": "all sets of profiling commands, all interleavings of their goroutines, all settings before, all profiles", "why_tests_cant": "quantifies over schedules of concurrent 30 second jobs", "anchors": ["scouterx/dump/dump.go:profileCpu,profileBlock,profileMutex", "scouterx/netio/tcpclient/handlers.go:triggerBlockProfile,triggerMutexProfile,triggerBinaryCpuProfile,triggerBinaryBlockProfile,triggerBinaryMutexProfile"]}
{"id": "C76", "title": "The collector decodes what was traced", "statement": "Each xlog is handed to the sender once and written by its own goroutine. However these goroutines, the queue's sender and the other packs are interleaved, whichever datagrams arrive and in whatever order: the xlogs which a collector decodes are those of services that ended, at most one for each, with the name, ids, times, error, status, user, API counters, texts and address of the service at its end (texts of more than 100000 bytes are replaced, C05). With a working socket every xlog is decoded exactly once when the goroutines are done, whatever happens to the queue.", "quantifier": "all histories of tracing calls, all other packs, all schedules of the goroutines, all losses and orders of datagrams", "why_tests_cant": "composes unbounded call histories, queue schedules and datagram layouts", "anchors": ["scouterx/strace/tracemain.go:StartService,EndService", "scouterx/common/netdata/xlogpack.go:Write", "scouterx/netio/dataproxy.go:SendXlog", "scouterx/netio/udpsender/udpsender.go:SendPackDirect", "scouterx/netio/udpclient/udpclient.go:WriteBuffer"]}
{"id": "C77", "title": "Packs sent directly and through the queue both reach the collector", "statement": "Packs handed to SendPackDirect are never refused and do not depend on the queue. Whatever the schedule of the goroutines, exchanges of the socket and losses in the network, the collector reads only packs that were handed over, each at most as often; with one working socket no datagram is lost in the agent, and when the goroutines are done and the queue never was full the collector reads every pack exactly once. The order of packs sent directly is kept.", "quantifier": "all sequences of packs on both paths, all interleavings of all goroutines, all socket exchanges, all sub-multisets and orders of the datagrams", "why_tests_cant": "unbounded numbers of goroutines and interleavings of their datagrams, including fragments of several packs mixed on the wire", "anchors": ["scouterx/netio/udpsender/udpsender.go:AddPack,SendPackDirect,run,send,reloadUdpSender", "scouterx/netio/udpclient/udpclient.go:WriteBuffer,WriteBufferList,writeMTU", "scouterx/netio/dataproxy.go:SendPackDirect,SendXlog"]}
{"id": "C78", "title": "The agent announces itself with a name, hash and type the collector can resolve", "statement": "From the start of the program on, whatever happens to the configuration, the text caches, the sockets and the other packs, every announcement of the monitored object carries the name in force when it was begun, that name's CRC-32, and the type in force, and before it a text of kind object with that hash was given to the sender since the collector last had the caches cleared. A new name is told at once. When nothing is dropped or lost the collector has every announcement and the text of its name. Starting never fails.", "quantifier": "all configurations and reloads, all interleavings of announcements with reloads, cache resets, other packs, goroutines and socket exchanges", "why_tests_cant": "unbounded histories of reloads, resets and announcements, and interleavings of a reload with the two halves of an announcement", "anchors": ["scouterx/agent.go:Init,objNameChangeObserver", "scouterx/task/agenttask/agenttask.go:SendObjPack", "scouterx/conf/opserver.go:objChangeNotify", "scouterx/conf/configure.go:resetObjNameAndType", "scouterx/netio/udpsender/udpsender.go:SendPackDirect", "scouterx/netio/dataproxy.go:SendObjName"]}
{"id": "C79", "title": "Ids are drawn once and do not repeat", "statement": "However many goroutines ask for an id at the same time, each number of the process's random source goes to exactly one of them, no call is left waiting for ever, ids are non-negative 63-bit integers, and as long as the source does not repeat itself no two ids of a process are equal; in particular fragments of different packs carry different keys. Ids of different agents differ.", "quantifier": "all random sources, all numbers of callers and calls, all interleavings, all start times", "why_tests_cant": "all interleavings of all callers; all sources and start times", "anchors": ["scouterx/common/util/keygen/keygen.go:Next,getInstance", "scouterx/netio/udpclient/udpclient.go:writeMTU", "scouterx/netio/tracecontext.go:NewTraceContext"]}
{"id": "C80", "title": "A conversation on the command connection", "statement": "When the collector sends requests one after the other, the agent obeys each in the state left by the one before and answers each, the collector can read the answers one after the other from the connection, and when the collector hangs up the session ends with an error (so that the agent reconnects).", "quantifier": "all sequences of requests and parameters, all configuration refreshes in between that keep the connection's identity, all segmentations of the stream that do not cut a payload", "why_tests_cant": "unbounded sequences of commands with effects on each other, all segmentations", "anchors": ["scouterx/netio/tcpclient/tcpclient.go:Process", "scouterx/common/netdata/datainputx.go:ReadIntBytes,ReadPack", "scouterx/netio/tcpclient/tcpmanager.go:startTcp"]}
{"id": "C81", "title": "Arbitrary bytes on the command connection", "statement": "Whatever bytes arrive on the command connection, in whatever segments: reading a request terminates and does not panic; the only effects are those of commands whose text was actually sent, obeyed one after the other and answered once each; a request that cannot be read completely has no effect, gets no reply and only ends the session; the configuration file is not touched unless SET_CONFIGURE_WAS occurs in the bytes received.", "quantifier": "all byte streams and segmentations, all agent states and configuration histories", "why_tests_cant": "ranges over arbitrary network input; malformed packs do panic and a request cut by TCP is obeyed with zero-filled parameters", "anchors": ["scouterx/netio/tcpclient/tcpclient.go:Process", "scouterx/common/netdata/datainputx.go:ReadIntBytes,ReadPack,ReadBlob", "scouterx/common/netdata/packcreator.go:CreatePack"]}
{"id": "C82", "title": "Numbers that stand for texts can be resolved", "statement": "Every number in an xlog or in a profile that stands for a text (service, error, user agent, referer, login, description, thread name; method, api call, message, stack element) is 0 or was preceded by a text pack of the same kind carrying that number and a text with that hash; the profile sent by the call that ends a service names the transaction and the service of its xlog.", "quantifier": "all histories of calls, all contexts, all texts, all queue states; resets of the text memory at any point", "why_tests_cant": "ranges over all interleavings of registrations, evictions, resets and uses; after OBJECT_RESET_CACHE the numbers of running services are not told again", "anchors": ["scouterx/netio/dataproxy.go:SendServiceName,SendError,SendHashedMessage", "scouterx/strace/tracemain.go:EndService,MarkAsError", "scouterx/netio/tcpclient/tcpclient.go"]}
{"id": "C83", "title": "Recording from several goroutines on one trace context", "statement": "When goroutines share a trace context, every step they record is sent exactly once, no call panics and no batch holds more steps than configured. (True only if their calls do not overlap; whatever the overlap, only recorded steps are sent, at most once in a batch, in batches of bounded size.)", "quantifier": "all numbers of goroutines, all sequences of recording calls of each, all interleavings of their memory accesses, all buffer and batch sizes", "why_tests_cant": "ranges over all interleavings; the losing ones need two goroutines a few instructions apart", "anchors": ["scouterx/netio/profilecollector.go:Push,Pop,Add,Process,Close", "scouterx/netio/dataproxy.go:SendProfile"]}
{"id": "C84", "title": "Listing active services while services start and end", "statement": "A listing of the active services (or of any such cache) made while others are added, removed, evicted or cleared shows every entry that was there during the whole call, exactly once, and nothing that was not there at some moment of the call; the call is never stuck. (The list as a whole need not have been true at any single moment.)", "quantifier": "all cache histories, all interleavings of a listing with additions, removals, evictions and clears, all map iteration orders", "why_tests_cant": "ranges over all interleavings with the lock released between items and over the freedom Go leaves to map iteration", "anchors": ["scouterx/common/structure/lra/lra.go:GetValues", "scouterx/strace/tctxmanager/tctxmanager.go:GetAllTctx"]}
{"id": "C85", "title": "The agent's locks cannot deadlock", "statement": "However many goroutines use the agent (tracing, metering, sending texts, reloading or showing the configuration, initialising its parts), no set of them waits for each other for ever: every call returns, and a lock held for writing is held by one goroutine only.", "quantifier": "all numbers of goroutines, all sequences of operations of each, all schedules, every state of the lazily initialised parts", "why_tests_cant": "a deadlock needs a particular interleaving of several locks", "anchors": ["scouterx/conf/configure.go:Refresh", "scouterx/conf/opserver.go:confChangeNotify,objChangeNotify,AddToConfObserver", "scouterx/strace/xlogsampler.go:GetXlogSampler", "scouterx/agent.go:Init", "scouterx/netio/udpsender/udpsender.go:GetInstance", "scouterx/counter/serviceMetering.go:Add"]}
{"id": "C86", "title": "Sampling while the settings are reloaded", "statement": "A keep-or-withhold decision made while the configuration is being reloaded is the decision of the old or of the new settings; in any case every single setting it used was in force, it keeps the record if sampling was off (or every percentage was 100) before and after, it is always reached, and once the reload is over decisions are those of the new settings.", "quantifier": "all old and new settings, any number of reloads during one decision, all interleavings of the reads and writes of single settings, all random draws, elapsed times, errors and names", "why_tests_cant": "ranges over all interleavings of the decision's reads with the reload's writes and over all settings", "anchors": ["scouterx/strace/xlogsampler.go:eEvaluateXLogDiscard", "scouterx/strace/xlogsampler.go:Run", "scouterx/strace/tracemain.go:findXLogDiscard", "scouterx/conf/configure.go:addToConf"]}
{"id": "C87", "title": "Changing the datagram size limit while packs are sent", "statement": "Changing udp_max_bytes at run time neither loses, duplicates nor corrupts a pack: the collector reads only packs that were handed over, each at most as often as it was, and all of them once nothing is under way and no datagram was without a socket; no value of the setting stops the sender, and queued packs keep their order.", "quantifier": "all packs, all schedules of queueing, direct sending, the sender goroutine and its batching, socket exchanges with any new limits at any time, any setting seen by the batching at any moment, any subset and order of the datagrams arriving", "why_tests_cant": "ranges over all interleavings of limit changes with batching, fragmenting and writing, and over all pack contents and sizes", "anchors": ["scouterx/netio/udpsender/udpsender.go:reloadUdpSender", "scouterx/netio/udpsender/udpsender.go:send", "scouterx/netio/udpclient/udpclient.go:SetUDPMaxBytes", "scouterx/netio/udpclient/udpclient.go:WriteBufferList"]}
{"id": "C88", "title": "The periodic counter reports describe the traced services and never stop", "statement": "Whatever services are traced, each turn of the two counter loops sends one pack with the configured object name and its kind of counters; its throughput, mean elapsed time and error rate are those of the services that ended in the last 30 (300) seconds, its number of active services is the average of the numbers of running services seen in that time, its speeds are the running services by duration; the collector decodes every such pack; and no turn stops the loops.", "quantifier": "all interleavings of tracing calls with turns of the two loops, all contents and durations of services, all clock readings and runtime statistics", "why_tests_cant": "ranges over all histories of services interleaved with the two loops and all positions of the clock in the ring of seconds", "anchors": ["scouterx/task/countertask/countertask.go:startRealTimeCounter", "scouterx/task/countertask/countertask.go:getAllCounterOnPack", "scouterx/task/countertask/countertask.go:getAll5MinCounterOnPack", "scouterx/counter/serviceMetering.go:GetAllCounter", "scouterx/strace/tctxmanager/tctxmanager.go:GetActiveCount"]}
{"id": "C89", "title": "Panics of the agent stay inside it and panics of the application are left alone", "statement": "Tracing calls placed anywhere in an application - in its functions, deferred around its own panics, inside its recover handlers - leave the application's behaviour as it is: a panic inside the agent's code never comes out of a tracing call, the application's own panics are neither stopped nor replaced by a deferred tracing call, its recover sees the same values, and it ends in the same state as without the tracing calls. A panic of the agent is reported by exactly one alert with the panic's value and a stack trace, and the call returns its zero result. A panic of a function given to GoWithTrace leaves the goroutine as after a plain go statement, after its service was ended.", "quantifier": "all application programs made of statements, calls, defers and recovers with tracing calls at any place, all states of the agent, all panic values", "why_tests_cant": "ranges over all programs and all places of the tracing calls in them, and over all agent states in which a call may panic", "anchors": ["scouterx/common/panic.go:ReportScouterPanic", "scouterx/common/panic.go:RegisterSendPanicF", "scouterx/netio/dataproxy.go:SendPanic", "scouterx/netio/dataproxy.go:reportScouterPanicFinal", "scouterx/strace/tracemain.go:GoWithTrace", "scouterx/strace/tracemain.go:EndService"]}
{"id": "C90", "title": "Redirecting a running agent", "statement": "When net_collector_ip, net_collector_udp_port or udp_max_bytes are changed in the settings while the agent runs, then, whatever happened before and however the reads of the settings interleave with their assignment, once the settings are left alone everything sent goes to the address and port in force with the limit in force, after at most 13 moves (less than two turns) of the goroutine that follows the settings, and it stays so; while nothing changes no new sockets are made; replaced sockets are closed and the one in use never is; datagrams go only to addresses and ports that were configured; a pack sent directly is never diverted by a later change; a collector that could not be reached at first is tried again.", "quantifier": "all interleavings of assignments to the three settings, of the moves of reloadUdpSender (each read and assignment separately), of AddPack, SendPackDirect, the sender goroutine and the socket writes; all settings and packs; sockets that open or fail", "why_tests_cant": "the goroutines share the settings without a lock and the comparison wakes up once a second; a test sees one interleaving of six unsynchronised reads with a refresh", "anchors": ["scouterx/netio/udpsender/udpsender.go: GetInstance, reloadUdpSender, SendPackDirect, run, send", "scouterx/netio/udpclient/udpclient.go: New, SetUDPMaxBytes, open", "scouterx/conf/configure.go: addToConf"]}
{"id": "C91", "title": "The agent does not take the application down", "statement": "Whatever the application calls, whatever the collector, the network and the schedule do, the agent's goroutines and calls never end the process with a panic that nobody recovers. Where that fails, the ways are exactly these: a refresh of the settings meets an environment entry without '='; trace_obj_send is on and there is no socket when the object is announced; udp_max_bytes is 0; send_queue_size is negative at the start; the clock reads a time before 1970. An agent whose configuration never mentions the three settings survives every history.", "quantifier": "all start configurations and all histories of refreshes (any environment and file each time), tracing calls with any arguments, turns of the counter loops, announcements, texts, cache resets, queued and directly sent packs, moves of the sender and of the goroutine that follows the settings, socket writes; sockets that open or fail", "why_tests_cant": "it is a statement about every goroutine of the agent under every configuration and interleaving; a test shows that one run survives", "anchors": ["scouterx/conf/configure.go: GetInstance, Refresh", "scouterx/netio/udpsender/udpsender.go: GetInstance, run, SendPackDirect, reloadUdpSender", "scouterx/netio/udpclient/udpclient.go: WriteBuffer, WriteBufferList", "scouterx/task/countertask/countertask.go: startRealTimeCounter, start5MinCounter, getAllCounterOnPack", "scouterx/task/agenttask/agenttask.go: SendObjPack", "scouterx/strace/tracemain.go: endAnyService, endStuckServiceForcibly"]}
{"id": "C92", "title": "What the agent keeps is bounded", "statement": "However long the agent runs and whatever is traced, sent, commanded or configured, what it keeps is bounded by constants and by its settings: at most send_queue_size serialised packs wait in the channel and as many in the sender's hand; at most 10000 texts of each kind (100 object names) are remembered; at most 10000 services are listed as active; the meters keep 301 buckets each; at most two UDP sockets are open, one between two redirections; a transaction keeps fewer profile steps than profile_step_max_keep_in_memory_count.", "quantifier": "all start configurations and all histories of refreshes, tracing calls with any arguments and any number of services never ended, counter loops, announcements, texts, resets, packs and moves of the agent's goroutines", "why_tests_cant": "a leak shows only in an unbounded history; the bound must hold in every reachable state of every interleaving", "anchors": ["scouterx/common/structure/lra/lra.go: Add, Remove, Clear", "scouterx/netio/dataproxy.go: ResetTextSent", "scouterx/strace/tctxmanager/tctxmanager.go: Start, End", "scouterx/netio/udpsender/udpsender.go: AddPack, send, reloadUdpSender", "scouterx/common/factory/channelfactory/channelfactory.go: GetUDPChannel", "scouterx/counter/metering.go: getPosition", "scouterx/netio/profilecollector.go: Process"]}
{"id": "C93", "title": "The agent's files", "statement": "The agent keeps to its own files. Its directory is SCOUTER_AGENT_HOME, else 'scouter' in the working directory (in the temporary directory if that has gone); its configuration is the file named by SCOUTER_CONFIG, else by scouter.config, else conf/scouter.conf in its directory; its log is logs/scouter.log there. Starting it creates at most the log and the directories on the way; afterwards no other file is ever changed than the log, which only grows by the lines logged, and the configuration when the server saves one; a saved configuration is what the server reads back and what the refresh loads. The start must not end the application, and the configuration in force must not depend on what the application does to its working directory.", "quantifier": "all environments, working directories, disks (which files, directories and permissions there are), all histories of refreshes, loads, saves and log lines", "why_tests_cant": "depends on what is on the disk, on permissions and on the moment the working directory changes; a test has one disk", "anchors": ["scouterx/common/util/osutil.go:GetScouterPath,GetAppPath,MakeDir", "scouterx/common/logger/logger.go:Init", "scouterx/conf/configure.go:getConfFilePath,Refresh", "scouterx/conf/exthandler.go:LoadConfigText,SaveConfigText", "scouterx/netio/tcpclient/handlers.go"]}
{"id": "C94", "title": "Goroutine numbers are the runtime's", "statement": "The goroutine number the agent shows for a service - in the first step of its profile and as the thread name in the lists of active services - is the number of the goroutine that started it, for every number the Go runtime can give and whatever is on its stack; a stack text of another form never yields another goroutine's number.", "quantifier": "all goroutine numbers up to 2^63-1, all stack texts", "why_tests_cant": "a test process has small goroutine numbers and few stacks; the text is cut at 64 bytes", "anchors": ["scouterx/common/panic.go:Goid", "scouterx/strace/tracemain.go:startService"]}
{"id": "C95", "title": "A refresh is not seen half way", "statement": "While the configuration is being refreshed, whoever reads settings - without the lock, as every package does - sees either the settings before the refresh or those after it: never a value that was not configured, never an address put together from two configurations, never sampling limits of two configurations. After the refresh everybody sees the new settings; whatever has once been seen new stays new.", "quantifier": "all pairs of old and new settings, all moments during the 66 assignments of a refresh (also in the middle of one), all settings and combinations of them, all lengths of the session opened meanwhile", "why_tests_cant": "needs a reader between two particular assignments, or between the two words of one text; tests cannot place it there", "anchors": ["scouterx/conf/configure.go:addToConf,resetObjNameAndType,Refresh", "scouterx/netio/tcpclient/tcpclient.go:Prepare,Process", "scouterx/strace/xlogsampler.go"]}
{"id": "C96", "title": "No fatal concurrent map access", "statement": "However many goroutines trace services, send texts, list active services, reload or show the configuration and start the sampler at once, no goroutine is ever inside one of the agent's shared maps while another one changes that map - the situation the Go run time answers by ending the process, which no recover can stop.", "quantifier": "all numbers of goroutines, all sequences of operations of each (hits, misses, evictions, listings of any length, reloads with any number of settings), all schedules", "why_tests_cant": "the run time detects the overlap only when it happens; a test sees a few schedules", "anchors": ["scouterx/common/structure/lra/lra.go:Add,Get,Contains,Remove,Clear,GetValues", "scouterx/conf/opserver.go:AddToConfObserver,confChangeNotify", "scouterx/conf/configure.go:GetConfigureDescMap,boolOf,intOf,stringOf,stringOfType", "scouterx/netio/dataproxy.go:ResetTextSent"]}
{"id": "C97", "title": "Alerts about stuck services", "statement": "When the active services are counted, each running service that has run longer than the configured base time, and no other, leads to exactly one alert to the collector naming the service, its running time and its goroutine, if such alerts are enabled; a service that is removed is not alerted about again. (The setting only lowers the level from error to warning; every message ends in %!d(MISSING); beyond 2000 running services the rest is not looked at; when removal is off each count, every two seconds, alerts again.)", "quantifier": "all histories of tracing calls, all settings, all clock readings, all enumeration orders of the table of active services, all later histories", "why_tests_cant": "ranges over all histories and all orders in which the table is enumerated", "anchors": ["scouterx/strace/tctxmanager/tctxmanager.go:GetActiveCount", "scouterx/netio/dataproxy.go:SendAlert", "scouterx/strace/tracemain.go:endStuckServiceForcibly"]}
{"id": "C98", "title": "Printed values and packs show their contents", "statement": "The text of a value (ToString) shows all of it: integers exactly so that they can be read back, floating point numbers rounded to the nearest thousandth, booleans as true or false, every element of a list with its index in order, every entry of a map exactly once on a line of its own; the text of a pack shows its main fields under their names. Printing never fails, and a value that went over the wire prints like the one that was sent.", "quantifier": "all values that can be built, of any depth and size, all orders in which maps are enumerated, all bit patterns of floating point numbers, all packs", "why_tests_cant": "trees of unbounded depth, all 2^64 bit patterns and all map orders", "anchors": ["scouterx/common/netdata/mapvalue.go:ToString", "scouterx/common/netdata/listvalue.go:ToString", "scouterx/common/netdata/doublevalue.go:ToString", "scouterx/common/netdata/booleanvalue.go:ToString", "scouterx/common/netdata/objectpack.go:ToString"]}
{"id": "C99", "title": "Caches used by several goroutines", "statement": "When several goroutines call the operations of one cache at the same time, the answers are those of a single goroutine making the same calls one after the other in the order in which they returned (so every call seems to happen at one moment between its beginning and its end): cachemap and cacheset answer as a bounded first-in first-out map that keeps the first value of a key, the LRA cache as one that keeps the last, cachemap2 as the first as long as nothing is removed. Each goroutine's calls return once each, in its own order. Size of a cache is one of these calls as well.", "quantifier": "all numbers of goroutines, all their programs of calls, all interleavings of the single accesses to the cache's fields, all capacities", "why_tests_cant": "ranges over every interleaving of field accesses of any number of goroutines", "anchors": ["scouterx/common/structure/lra/lra.go:Add", "scouterx/common/structure/cachemap/cachemap.go:Add", "scouterx/common/structure/cachemap/cachemap.go:Size", "scouterx/common/structure/cacheset/cacheset.go:Add", "scouterx/common/structure/cachemap2/cachemap2.go:Add"]}
{"id": "C100", "title": "Services do not interfere", "statement": "What the collector is told about a service and what the calls on it return depends only on how that service was begun and on the calls made on its own context: two histories in which a service has the same tale (the same beginning, for inherited services and goroutines the same tale of the parent, the same calls on it at the same times with the same keys, goroutines and configuration), whatever other services do in between, how full the send queue is, what the sampler draws and in whatever order tables are visited, give the same meter samples for it, the same xlog apart from the numbers of profile steps and bytes sent so far and the sampler's decision, the same results of the calls on it (contexts left out), and, when the sampler keeps both, profiles in which the collector decodes the same steps with the same numbers. A count of the active services that may end stuck services belongs to the tale of every service begun before it; such counts must see all running services (distinct transaction ids, at most 10000 running services so far, at most 2000 when counting).", "quantifier": "all pairs of histories of any length with any number of other services, all tales, all parameters, times and keys, all configurations, with counts that end stuck services seeing all running services", "why_tests_cant": "compares every pair of histories with arbitrarily many interleaved services; a shared table or counter leaking into another service shows only for particular interleavings", "anchors": ["scouterx/strace/tracemain.go:StartService", "scouterx/strace/tracemain.go:EndService", "scouterx/netio/tracecontext.go:TraceContext"]}
{"id": "C101", "title": "A panic report says where the panic happened", "statement": "StackTrace(n) gives one line for each named function among the innermost n callers (one for n = 0), innermost first, with its name, the last part of its file's path and its line number, and the text tells different places apart: function, file and line of every frame can be read back from it. When a tracing call panics inside the agent, the collector decodes exactly one fatal alert with the title Panic, whose message is the panic's value followed by the lines about the innermost hundred callers. A negative n panics.", "quantifier": "all call stacks of any depth with any names, paths and line numbers, all counts, all tracing calls, states and panic values", "why_tests_cant": "ranges over all stacks and texts; a separator inside a name or a path would make a report ambiguous only for particular inputs", "anchors": ["scouterx/dump/dump.go:StackTrace", "scouterx/common/panic.go:ReportScouterPanic", "scouterx/netio/dataproxy.go:SendPanic"]}
{"id": "C102", "title": "Profile packs name their agent and transaction", "statement": "Every profile pack, whenever it is sent - in the middle of a service, at its end, or when a stuck service is removed - carries the object hash in force at the call that sent it and the transaction id of its service, which never changes and is the id in the service's xlog. Packs that were sent stay as they were; each call only adds packs behind them.", "quantifier": "all histories of calls on any number of services, all configurations and changes of them, all clock readings and keys", "why_tests_cant": "ranges over all histories and all positions at which the profile buffer fills up", "anchors": ["scouterx/netio/dataproxy.go:sendProfile0", "scouterx/netio/profilecollector.go:Process", "scouterx/strace/tracemain.go:endAnyServiceOfTraceContext"]}
