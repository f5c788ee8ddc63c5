C01	proved	
C02	proved	Booleans included: any non-zero byte reads as true.
C03	partial	False as listed: arrays of 32768..65535 bytes make ReadBlob panic (two-byte length read as signed). Exact domain of the round trip proved (iff).
C04	proved	
C05	proved	
C06	partial	Proved for all trees the reader can restore (no IPv4 value, no text/key/blob of 32768..65535 bytes, no text over 100000 bytes) and any map order; the unrestricted statement is refuted; collector decodes every tree.
C07	partial	False for every address: ReadValue never returns an Ip4Value (refuted); the bytes are decodable by a collector.
C08	partial	Termination proved; panics characterised (only negative lengths) but exist (refuted); errors reported for truncated numbers, not for truncated texts (refuted).
C09	proved	
C10	proved	domain: texts the agent's reader can restore (see C03)
C11	partial	All fields that the format carries are recovered; XlogProfilePack2-style Elapsed of XlogProfilePack is not written (refuted for that field).
C12	partial	Holds exactly for map, perf-counter and object2 packs; text/alert packs come back empty, xlog/profile/k8s panic, object pack is misread.
C13	partial	All step types except DumpStep, which carries the METHOD type code (refuted); concatenation proved for all.
C14	partial	Recoverable when no parameter contains byte 3; otherwise ambiguous (refuted).
C15	partial	All accessors proved, on any table or list (C15_map_getters, C15_list_getters); SetStatus is proved to be a no-op, so that part is refuted.
C16	proved	
C17	partial	False as listed (collision and zero-hash witnesses); proved: no collision between texts differing within 4 consecutive bytes, no zero hash for 1..3 byte texts.
C18	proved	decoder follows Java Hexa32 (64-bit negation), so the smallest int64 is included
C19	proved	
C20	partial	GetDuration proved for all non-negative inputs; MillisBetween exact below 2^31 ms, refuted beyond (int32 wrap).
C21	partial	Exact for single-piece patterns and s*e (given room for both pieces); other two-piece patterns never miss a glob match; over-matching and three-piece patterns refuted.
C22	partial	Refuted: CommaSeparatedChainedStrMatcher never matches anything (StrMatch built without NewStrMatch).
C23	proved	
C24	proved	GetValues is one atomic step in the model; it releases the lock between items in the code
C25	proved	callbacks listed whether or not OnEvicted is set; it is called iff set
C26	proved	gods containers modelled as insertion-ordered lists
C27	partial	FIFO refinement proved for histories without Remove; refuted with Remove (order entry left behind); capacity bound and return proved for all histories with positive capacity; capacity <= 0 never returns.
C28	partial	Refuted for lra.Empty (nested read lock with a pending writer); progress and termination proved for every other operation mix; mutual exclusion proved.
C29	partial	Reassembly in any order, with duplicates and foreign datagrams, proved for up to 32767 fragments; refuted beyond (int16 total wraps); a zero limit panics.
C30	partial	Exactly-once with counts proved for lists of at most 32767 non-empty buffers; a list of empty buffers is not sent (refuted); oversized buffers overtake smaller ones (proved).
C31	proved	Domain: non-empty buffers of at most 32767 fragments, queue size up to 32767, connected socket, queue and client using the same limit (a changing limit: C87); proved also that nothing is reordered, even oversized packs; with send_queue_size 0 the channel never takes a pack (C31_no_room_accepts_none)
C32	proved	header is at most 25 bytes
C33	proved	For every start time, call sequence with a non-decreasing clock (readings >= 0) and period; sums below 2^63 / 2^31; Add and GetAllCounter taken as atomic (GetAllCounter does not take the ServiceMetering lock, so a concurrent Add may be seen half done); period 0 gives NaN (proved). Value-meter sums exact for integers up to 2^53 via Flocq (stdlib real-number axioms).
C34	proved	float32 arithmetic is the stdlib SpecFloat; uses Flocq, hence the stdlib axioms of the reals
C35	partial	Refuted (101 s old sample counted in the 30 s window after the clock is set back); proved: any window starting after the last backward step is exact
C36	partial	Proved for the periodic real-time and five-minute packs; refuted for the start-up pack of collector.go (swapped)
C51	partial	Proved for every sequence of sends and resets: the text is given to the queue exactly when its hash is not among the newest 10000 (100 for object names) given since the last reset; refuted: when the UDP queue is full the text is lost and still remembered as sent. CRC-32 collisions: the pack found may carry another text with the same hash (C17).
C52	proved	Any number of goroutines, caches cleared at any time; exactly-once is refuted by a two-caller schedule
C37	proved	Every sequence of Push/Pop/Add where each method is ended at most once, every keep and batch size >= 1, which may change between calls; ending a method twice duplicates its step (refuted). Dump steps are excluded (C13).
C38	partial	Proved for every well-nested sequence of fewer than 2^31 steps; refuted: the first step (and any step outside a method) has parent 0, so step 0 is its own parent
C39	partial	Proved for batch sizes >= 1; sizes 0 (panic) and negative (lost steps) are accepted by the configuration (refuted)
C40	partial	Refuted: the xlog is built before the final flush, so its counters miss the steps flushed at the end (P_Trace2); proved for every history (C40_xlog_counts_partial, P_Counts.v): the xlog's counters are the steps and bytes a collector decodes from the profile packs sent before the end, and with the steps of the packs sent by the end they add up to the finished steps
C45	proved	over every draw, elapsed time, URL and configuration of the sampler; proportions are exact counts over the 100 equally likely draws
C47	partial	Refuted: configured discard/exclude patterns never match anything (C22) and show-error is not consulted; proved: the decision follows the numeric configuration for every transaction, and what it would be if the matcher matched
C41	partial	Proved for every sequential history with batch size <> 0 (exactly one sample, at most one xlog per service); concurrent ends: at least one and at most one per goroutine in every interleaving; exactly-once under concurrency refuted (Closed is tested and set without a lock), and a zero batch size loses the sample (refuted)
C42	proved	every history in which transaction ids are distinct and at most 10000 services run at once
C43	partial	Proved for every history whose generated keys are not 0, over whole spawn trees, both in the state and in the xlogs sent; refuted for the one key value 0 (1 in 2^63)
C44	partial	Proved for every configuration and draw, batch sizes >= 1: a service in error is always sent with its whole buffered profile, marking puts it in error and nothing but a forced empty error takes it back; refuted for an error whose message hashes to 0 (the empty message)
C46	proved	every end call, every state of the service, every sampler and configuration with batch size >= 1
C48	partial	Inertness proved for every call but the starts, every state; idempotence for every state; StartService never nil for every history and configuration with keep and batch sizes >= 1; refuted for keep sizes <= 0 and for StartHttpService with a nil request
C49	partial	Proved for every history with distinct ids and at most 2000 running services, every clock, thresholds and iteration order; refuted for more than 2000 (the rest is neither counted nor removed)
C50	partial	Proved for every history, context and configuration with keep and batch sizes >= 1; refuted for keep sizes <= 0 and batch size 0: the function is never started
C64	proved	every well-used history (non-nil arguments, keep and batch sizes >= 1) of every API call, in every order; and in any state at all a panic inside the API does not reach the caller
C57	proved	Binary (300-byte ReadAt chunks, any size including multiples of 300 and 0) and text downloads (any OS read split) parse as HasNEXT blobs closed by NoNEXT whose concatenation is the file; a failing device yields a prefix; a missing file yields an empty response.
C58	partial	Proved for every name without a '..' step (and the truthfulness of the delete result for every name). The unrestricted claim is refuted in general: for every absolute agent directory any file of the machine can be read through OBJECT_DUMP_FILE_DETAIL and any *pprof file downloaded or deleted.
C65	partial	Block and mutex profiles proved complete. Thread dumps refuted: the bufio.Writer is never flushed, so up to 4096 trailing bytes are lost; with the runtime's single Write a dump of at most 4096 bytes gives an empty file, a longer one is complete (both proved).
C66	partial	Columns and rows proved exact; fetching by listed name proved for files directly in the directory. Refuted for files in subdirectories (listed by base name) and for the full path name returned by TRIGGER_THREAD_DUMP. Listing followed by fetching is also proved through the commands themselves (C66_list_then_fetch, C66_list_then_download).
C59	partial	Proved for every setting when the file does not give it an empty value; refuted otherwise: an empty value in the file hides the environment's value and the default is used (C59_refuted, general form C59_empty_file_value_hides_environment).
C60	partial	Proved when the modification time is later than all seen before; refuted otherwise (an older or same-tick file is ignored). The sampler always corresponds to the settings in force (C60_sampler_follows, full), and each of its parameters is the value of the setting of that name (C60_sampler_settings).
C62	partial	A value containing '=' is cut at it and an environment entry without '=' panics (refuted); verbatim otherwise. ${...} expansion of the properties library is not modelled.
C67	partial	One entry per setting with value, default, description and type. Exception shown in the statement: a 32-bit millisecond setting shows the number before it is cut to 32 bits (C67_example).
C53	proved	For every command, parameter and state; responses below 2^31 bytes (Java int lengths).
C54	partial	Proved when no segment boundary falls inside a payload (a length may be cut anywhere); refuted for a payload cut in two: ReadIntBytes reads once and the rest is taken for the next frame.
C55	partial	Delay after a failure is always 4 s (3 s + 1 s), so at most 60 s, but never doubles (refuted), and after a clean end or a panic it is 1 s (refuted minimum).
C56	proved	Distinct transaction ids and never more than the table's 10000 services at once. C56_rows_are_accounts: the rows in terms of the ledger of calls.
C61	partial	The text 'result' is "true" exactly on success, but its boolean reading is never true (refuted), because the value is a string.
C68	partial	Session ends between commands once hash, address or port differ from those at the start of the session; refuted when the address changes between dialling and the start of the session: it then goes on at the old address.
C69	proved	GET answers with the whole text; the collector reads it whole up to the wire limits of C11.
C70	partial	Distinct transaction ids and never more than 10000 services at once. C70_describes_account says the same in terms of the ledger of calls (name, running time, goroutine, last method). Refuted: a service started by GoWithTrace is shown under the goroutine that called GoWithTrace, not the one that runs it (C70_child_goroutine_refuted).
C63	proved	ledger of S_Ledger.v; which of the services found stuck by GetActiveCount are removed is left open there, but not in C63_exact_ledger (S_Sweep.v), where every such count sees all running services (at most 2000 of them, C49); the decision to send is C46, the profile counters C40
C72	proved	hypotheses: arguments of their Go types, each started step ended at most once, service ended by an end call, or by the stuck check with at most 2000 services running
C73	proved	incoming headers are not taken up by the agent (C73_incoming_headers_ignored)
C74	proved	keys other than 0 (see C43_zero_key_refuted)
C75	partial	exact once nobody is inside Add and bounded reads proved; error rate above 100 during concurrent reads and 301 s stalls refuted; sequentially consistent memory assumed
C71	partial	mutex fraction restored for jobs nested in time, block rate off after all jobs, rate in force while no other job of the kind begins or ends, CPU exclusion in full, files exact when a command does not come twice in one second; the unrestricted claims are refuted
C76	proved	one history of the tracing API (sequential calls) composed with M_Net and an executable collector; fragment keys taken not to repeat (C79); profile packs are C72
C77	partial	Everything proved except the order of direct packs (refuted: each has its own goroutine) and packs under way while the socket is exchanged (refuted: can be lost). Fragment keys taken not to repeat; datagram limit constant (a changing limit: C87)
C78	partial	Contents, resolvability, renaming and delivery proved for every life of the process. Refuted with witnesses: name and type of one announcement can be of different settings (refresh between the two reads), the start panics with trace_obj_send set and no socket, the announcement is nameless when the configuration file cannot be examined
C79	partial	The random source (Go's math/rand) is an arbitrary deterministic generator; that ids differ is proved as long as the source does not repeat. Refuted: agents started in the same second draw the same ids, since the source is seeded with the seconds of the clock
C80	proved	payloads not cut by the stream (C54) and an identity that stays (C68) are hypotheses, as in the English statement; requests are map packs the agent's reader can read (C10)
C81	partial	proved: termination, effects only by commands that were sent, bad requests have no effect; refuted: a malformed pack panics (recovered in startTcp: the session ends), and a SET_CONFIGURE_WAS cut inside its text by a TCP segment boundary is obeyed with the missing part replaced by zero bytes
C82	partial	proved: xlogs without hypotheses, profiles if application-made steps carry no text numbers, profile headers; 'told' means given to the sender (a full queue drops it: C51_queued_partial); refuted: after OBJECT_RESET_CACHE the error/user agent/referer numbers of running services are used without being told again
C83	partial	proved: bounded batches of recorded steps, each at most once per batch, under every interleaving; exactly-once and no panic when calls do not overlap, including the final Close, with the indices and parents of a single goroutine making the calls in turn; refuted for overlapping calls (the collector has no lock): a step overwritten, a batch sent twice, an index out of range. Sequentially consistent memory is assumed
C84	partial	proved: complete for entries present throughout, once each, nothing foreign, never stuck, under every interleaving; refuted: the list need not equal the contents at any moment (the lock is released between items). Go's map iteration is described by the language specification
C85	proved	all locks of the agent with Go's RWMutex semantics (a waiting writer blocks new readers); sync.Once as a lock while its function runs; conf's own Once is finished by package initialisation; locks inside the standard library and gods are not modelled
C86	partial	proved: the decision is that of a mixture of settings in force, of the old or the new ones when one sampling setting changes, and keeps everything if all of them have sampling off or all percentages at 100. Refuted with a witness: several changed settings can give a decision neither configuration makes (switching sampling on with 100% can withhold a record)
C87	partial	proved: with the limit changing at any time within [lo, 2^31-1], lo>=1, nothing is invented, nothing is missing when all is at rest, direct packs arrive, no sender step fails, and a continuation that delivers everything exists. Refuted with witnesses: queue order (an oversized pack overtakes while setting and limit differ) and the limit 0 (division by zero in a goroutine without recover). The first two also for every history of the whole agent with all its goroutines (C87_whole_agent_no_invention, C87_whole_agent_nothing_missing), for the packs its log and moves name. Each client's limit is that set before it is published; fragment keys taken not to repeat
C88	partial	proved for clocks that are not before 1970 (never stops, one pack per turn, decodable) and, for the contents, that do not go back, with at most 2000 services running at once and distinct transaction ids (limits of C49). Refuted with a witness: a clock before 1970 kills the process (index panic; the recovered getter returns nil, which SendPackDirect dereferences outside any recover). One clock reading per call or turn; calls and turns are taken one at a time
C89	partial	proved for every program once common.RegisterSendPanicF was called (by the agent's main package): Go's defer/panic/recover semantics is modelled (M_Defer), tracing calls are those of M_Trace. Refuted: in a program that imports strace without the main package an agent panic reaches the application as a nil function call and replaces a panic of its own; and the last guard (reportScouterPanicFinal is called, not deferred) stops nothing. Tracing calls' results are not used by the application except as arguments of later tracing calls
C90	partial	Proved for every interleaving of the single reads and assignments: C90_follows, C90_no_churn, C90_whole_agent_follows (the same for the whole agent, whatever its other goroutines do), C90_sockets, C90_not_diverted, C90_only_configured for address, port and limit separately (C90_whole_agent_only_configured in the whole agent), and C90_whole_agent_refines: every history of the whole agent is, for the address and the datagrams, one of this model. Refuted: an address and a port that were never configured together can be used while a refresh is half seen (C90_half_seen_refuted); an address that could not be resolved when it was taken over is never tried again (C90_no_retry_refuted).
C91	partial	The claim is refuted in five ways (C91_environment_refuted, C91_trace_obj_send_refuted, C91_zero_size_refuted, C91_before_1970_refuted, C91_negative_queue_refuted); C91_only_ways and C91_start_only_ways prove that there are no others in the model, for every history; C91_default_settings_survive proves survival from the inputs alone, C91_survives from the settings reached. Assumed of the Go runtime only: a range over a map visits every entry once. Not modelled: fatal errors that are not panics (out of memory, a queue size too large to allocate; concurrent map access is C96), a refresh seen half way (C95), the command connection's goroutine (recovered as a whole, tcpmanager.go:22) and profiling jobs. The log file that cannot be opened at the start (log.Fatalln, which is an exit and not a panic) is C93.
C92	proved	Counts of entries, buffers, sockets and buckets of the whole agent of M_Whole.v (C92_bounded, C92_one_socket), with no assumption on the calls; the profile steps at the level of one transaction's collector (C92_steps). Not counted: bytes of the packs themselves, goroutines of direct sends that the network keeps waiting, memory that is garbage, the command connection (one at a time by construction of its loop).
C93	partial	Two parts of the claim are refuted: the start ends the application (log.Fatalln) exactly when the log cannot be opened (C93_start gives the exact condition, C93_start_refuted the read-only disk), and without an absolute path in the environment the configuration moves with the application's working directory (C93_moves_refuted; C93_stays_partial proves the rest). Places, the effect of the start, which files and directories may change, the log's growth and the saved text are proved for all disks and histories (C93_where, C93_refresh_reads, C93_start, C93_only_its_files, C93_log_grows, C93_saved). The disk is a tree without links; permissions are inputs; other programs do not change it during a call; '..' in a path is followed on names.
C94	proved	C94_number for every number and rest of the stack, C94_other_text for texts whose first word is not a number that fits. Assumed of the runtime: the text of runtime.Stack starts with "goroutine ", the number and white space. Not modelled: white space outside ASCII before the end of the first word.
C95	partial	Proved: every number or switch read during a refresh is the old or the new one, texts too unless their assignment is under way; start and end states; new stays new, in the order of assignment; a refresh of one setting is seen whole; the object hash seen is always that of the old or the new name. Refuted in the code: a connection made during a refresh that changes address and port goes to new address and old port and is kept for ever; a text read while it is assigned can be neither (new bytes, old length); sampling limits of two configurations are mixed. Modelled: order of assignments as in the source, strings as two words; not modelled: reordering by compiler or processor beyond that.
C96	proved	For every number of goroutines, every program of each and every schedule. The maps modelled are all maps the agent's goroutines share; the lock calls of each operation are proved to be those of C85 (so that C85's exclusion applies). Not covered: the cache packages the agent does not use (cachemap, cacheset, cachemap2) and maps owned by the application.
C97	partial	proved: exactly one alert per running stuck service per count (at most 2000 services looked at), its contents, and none after the service was removed; refuted parts proved as theorems: stuck_service_alert_enabled=false only lowers the level (C97_disabled_still_alerts), with removal off every count alerts again (C97_repeats), the message's last number is always %!d(MISSING) C97_never_twice: over any number of counts with removal on, no service is alerted about twice.
C98	partial	Proved for all values and all enumeration orders: C98_values (what is printed is exactly a text of the value), C98_numbers, C98_packs, C98_after_the_wire. Refuted for booleans: false is printed as "fasle" (C98_false_refuted). The conversion of floating point numbers by the Go library is modelled as exact decimal rounding.
C99	partial	Refuted for Size of cachemap, cacheset and cachemap2 (it takes no lock and can see the middle of an Add: C99_size_refuted; its answer is always between 0 and the capacity) and for cachemap2 after Remove (C27). Everything else proved: C99_as_one_goroutine for all four caches, with the answers of the specification map in C99_cachemap, C99_cacheset, C99_lra. GetValues of lra and cachemap2, which releases the lock between items, is C84's.
C100	proved	Proved for all pairs of well used histories whose removals of stuck services see all running services (S_Sweep.v: distinct ids, at most 10000 running so far, at most 2000 at the count) in which a service has the same tale (S_Isolation.v: the calls on its own context only): same samples (C100_samples), same xlog apart from the step/byte counts of the profile and the sampler's decision (C100_xlogs), same results (C100_answers), same decoded profiles when kept (C100_profiles; C100_stuck_profiles for services ended by a count). The calls are the traced API of M_Trace.v, one call at a time.
C101	proved	What runtime.Callers, FuncForPC and FileLine say of the stack is the input (M_Stack.v); the text, that it can be read back (function names without spaces and line ends, paths without line ends), and the alert decoded by the collector (with C89 and C11; texts of at most 100000 bytes, longer ones are replaced: C05) are proved.
C102	proved	Proved for every history and every call of M_Trace.v (no hypotheses but a batch size other than 0 for the comparison with the xlog). The object hash is the one in force at the call that sends the pack.
