# Formal model of scouter-agent-golang in Rocq (Coq 8.16.1)

The theorems are about a hand-written Gallina model of /repo; the only tie to the Go code is the
reading of it. Every model definition cites the file and lines it models and any simplification.

## Layout

* `Model/…`‑style files (`M_*.v`): executable model, no proofs of properties.
* `S_*.v`: specifications, written independently of the model (collector-side grammar, bitwise CRC,
  glob semantics, abstract FIFO map, ...).
* `L_*.v`: lemmas and proofs.
* `P_*.v`: the property theorems only, each closed by `exact`, with `Print Assumptions` and a
  non-vacuity `Example` beside it.

Conventions: a byte is a `Z` (range predicate `is_byte` where it matters), a Go string/[]byte is
`list Z`; fixed width integers are `Z` with explicit wrap functions; floats are their IEEE bit
patterns; a panic is an explicit result; Go maps are association lists whose list order *is* the
iteration order chosen by the runtime (theorems quantify over it); clocks, random draws and key
generators are inputs of the operations; goroutine interleavings are explicit step relations.

## Plan per property

| id | model | proof |
|----|-------|-------|
| C01 C02 | DataOutputX / DataInputX over segmented readers | arithmetic of big-endian encodings; induction on segments |
| C03 C04 C05 | WriteBlob/ReadBlob/WriteString | case split on length classes; refutation witness for 32768..65535 by computation on `repeat` |
| C06 C07 C08 | value tree, ReadValue with fuel | nested induction on trees; fuel adequacy; witnesses for refuted parts |
| C09 | writer state machine | induction on call list |
| C10 C11 C12 | pack records | sequential composition of field codecs, spec parser |
| C13 C14 | steps | induction on step list |
| C15 | accessors on assoc lists | induction |
| C16 C17 | table-driven CRC vs bitwise CRC | finite table check lifted by induction; collision witnesses |
| C18 C19 C20 | util functions | digits lemmas |
| C21 C22 | StrMatch vs glob relation | case analysis; refutation witnesses |
| C23 C24 C25 | lra as heap of elements + list + table | refinement to abstract FIFO map |
| C26 C27 | cachemap, cacheset, cachemap2 | invariants; refutations |
| C28 | RWMutex state machine | reachable stuck state |
| C29..C32 | UDP client and sender | spec collector decoding datagrams; induction; queue invariant over interleavings |
| C33..C36 | ring of 301 buckets | invariant relating ring to history |
| C37..C40 | ProfileCollector + SendProfile | invariant over operation histories |
| C41..C50 | trace heap, active cache, sampler | invariants over API call histories; interleaving model for the end race |
| C51 C52 | text caches + queue | invariants, interleaving model |
| C53..C56 | TCP framing, handlers | parser spec; segmentation witnesses |
| C57 C58 | dump streaming, lexical path cleaning | induction on file size; traversal witness |
| C59..C62 | configuration refresh | direct, over property maps |
| C63 C72 C73 C74 | a ledger (S_Ledger.v): what a reader of the API expects to be sent after each call, with no contexts, sampler or caches | simulation between the trace model and the ledger, over all histories. C72_stuck_profiles (P_StuckProfile.v) covers the services ended by GetActiveCount; C63_exact_ledger (`S_Sweep.v`, P_Sweep.v): with at most 2000 running services a count ends and reports exactly the overdue ones, whatever the order of the table |
| C64 | every API call with its deferred recover | case analysis: in any state no panic reaches the caller |
| C65 C66 | bufio.Writer of the thread dump, directory listing, fetch by listed name | invariant on the writer's buffer; lexical path lemmas; witnesses |
| C67 C69 | configuration descriptors; GET/SET of the configuration text | over all property maps and texts |
| C68 C70 | command session as a loop over requests; thread detail | induction on the requests; invariant of the active table; P_Account: the ledger (S_Ledger) also keeps the starting goroutine and the last method, and thread detail and active list (C56) are stated over its accounts; witness for GoWithTrace |
| C71 | concurrent block / mutex profile jobs and the global profiling rates | step relation over jobs; invariants; witnesses |
| C75 | Add / GetAllCounter cut into single field accesses, any number of goroutines | invariant over interleavings, bounds for overlapping readers |
| C76 | ledger of C63 + xlog codec of C11 + direct path of C77 | accounts hold Go values (induction on histories), composition with C77 |
| C77 | M_Net: queue sender, one goroutine per direct pack, sockets exchanged | the datagrams made are a multiset of parcels with different fragment keys; an executable collector reads parcels whatever arrives (splitting of multisets) |
| C78 | M_Agent: configuration (C59), text caches (C51) and M_Net (C77) in one process, an announcement in two halves | invariant on lives (log entries explain every announcement), refinement to the histories of C51 and C77 |
| C79 | M_Key: callers of Next in small steps around a mutex, an arbitrary deterministic source | invariant over all schedules; histories with drawn keys refine the histories of C77 |
| C80 | process_loop of M_Tcp on a stream of requests, S_Session: threading of the handlers | induction on the conversation, with C03, C12, C53, C54 |
| C81 | read_int_bytes/read_pack/process_loop on arbitrary readers; S_Request: obeyed, was_sent | the reader lemmas of C08 extended to packs; induction over the loop for the effects; panics and the zero-filled cut request as refutations |
| C82 | all of M_Trace + M_Text; S_Resolve: the numbers of a record, told (a matching text pack was given to the sender) | triples `tri K m Q` (numbers known before, numbers known after) for every call, with the cache/log invariant of C51; the loss after OBJECT_RESET_CACHE as a refutation |
| C83 | M_ProfileConc: every field and slice access of Push/Pop/Add/Process/Close/SendProfile as one atomic action, goroutines with programs of calls, any schedule; S_ProfileConc: recorded, waiting, one_at_a_time | ghost map from stored steps to slots (each step stored in one slot); a per-program-point description of buffer+sent for calls that do not overlap; the levels once the current call is done as an invariant (C83_serialized_links); small schedules as refutations |
| C84 | M_Values: GetValues as a loop with the lock released between items, writers (M_Cache operations) in between, map iteration as the Go specification describes it | invariant: elements that left are remembered with the state they were in; a key present in all states keeps its element; witness for the missing snapshot property |
| C85 | M_Locks: fifteen locks, RWMutex semantics, the lock calls of every operation of the agent | a rank on locks; every operation takes locks upwards; progress by induction on the highest lock waited for; pairwise exclusion invariant |
| C86 | M_SamplerConc: the decision as a program reading one setting at a time, the reload as its list of writes in source order (then the matchers), interleaved at will; one variable is read or written at once | symbolic execution of the program under an invariant (each variable has the value of some configuration in force); without writes equal to M_Sampler; witness for the mixture |
| C87 | M_NetLimit: every client has the limit it was made with, the batching reads the setting separately (any value at any moment), reloads give any new limit | invariant as C77 with every datagram group tagged by its limit; the batched list may be permuted by oversized packs; effort measure for completion; witnesses for order and for limit 0; P_Whole3 shows that every history of the whole agent (M_Whole) is such a history for the packs it handed over (S_WholeNet) |
| C88 | M_Tasks: tracing calls (M_Trace) and turns of the two counter loops in any order over one agent and its meters (M_Meter); a panic outside recover ends the process | induction on the execution: the meters' histories are the ledger's reports (S_Ledger) and the counts seen, then the window theorems of C33 and the count of C49; ranges of all values for decodability (C11); witness for a clock before 1970 |
| C89 | M_Defer: the Go specification's defer, panic and recover as an interpreter of function bodies; ReportScouterPanic, SendPanic and every function of strace over it; applications as programs with tracing calls | induction on the application: the running program and the program without tracing calls stay in step, deferred calls included; witnesses for the missing registration and the useless last guard |
| C90 | M_Redirect: the three settings as shared variables, reloadUdpSender with one move per read, assignment, publication and close, over the sender of M_NetLimit with the address of every client. P_Redirect: an invariant (the client in use is that of the package variables, the others are closed) and a ranking of the goroutine's places (at most 13 moves); provenance of all values by induction over executions; witnesses for half-seen refreshes and for the missing retry. P_WholeFollows lifts the first to the whole agent of M_Whole; P_Whole2 proves that the whole agent refines M_Redirect and lifts the provenance of addresses |
| C91 | M_Whole: the settings and announcement (M_Agent), the sender and reloadUdpSender with their limits (M_Redirect, M_NetLimit) and the tracing API with the counter loops (M_Tasks) in one state, every goroutine's next step a move; None when a panic leaves a goroutine. P_Whole: invariants (limits belong to clients, valid table of services, shape of the meters) show that a move can fail only in the listed ways; provenance of limits from settings gives survival; a witness for each way |
| C92 | the state of M_Whole read by S_Memory (channel, sender's list, caches, meters, open sockets); one invariant over every move: caches well-formed and within their limit (from C23's lemmas), channel within capacity and the sender's list within what it announced to take, every older socket closed but at most one, bucket tables of constant length; the profile collector by induction over its calls |
| C93 | the agent's path functions, logger.Init, getConfFilePath, LoadConfigText/SaveConfigText over a disk that is a tree of directories and files with permissions as inputs (M_Files.v); places specified from the environment and by following path names one by one (S_Files.v); invariant 'the disk is a tree' and frame lemmas for mkdir and write; induction over histories. Refuted: log.Fatalln at the start, configuration moved by chdir |
| C94 | Goid's reading of the first 64 bytes of the stack text (M_Goid.v); number written in canonical decimal, uniqueness of that writing, at most 19 digits so that it is never cut; strconv's ParseInt from M_Conf.v |
| C95 | `M_Half.v`: the settings after k of the 66 assignments of addToConf, in the order of the source, with the next text possibly half written (two words). `S_Half.v`: the settings in that order and what may be read of one. By a lemma that gives each of the 66 settings of the half-refreshed object, then case analysis; the session witness uses `session` of M_Tcp.v |
| C96 | `M_Maps.v`: the operations of M_Locks.v with the moments at which each enters and leaves a shared map. By projection onto M_Locks.v (C85_exclusion) and an invariant: inside a map its lock is held, alone if the map is changed |
| C97 | M_Alert: the alerts of GetActiveCount with their text (fmt's %!d(MISSING) for the missing argument), shown to leave the state of M_Trace's count; S_Alert: what an alert about a service says | induction over the enumeration with the other contexts unchanged; closed services stay closed (frame rule of all calls) |
| C98 | M_Show: the ToString methods, FormatFloat('f', 3) as exact rounding of the binary fraction. S_Show: texts as a relation (decimal texts, nearest thousandth of an IEEE 754 pattern, entries of maps in any order). P_Show: the relation holds of what is printed and characterises it (C98_values), numbers are read back, packs field by field; refuted: false is printed as "fasle" |
| C99 | `M_CacheConc.v`: every access to the fields of a cache a step of its own, goroutines with programs of calls, the package's RWMutex, Size without a lock; `S_CacheConc.v`: the answers of a list of entries. Invariant: the calls under way are prefixes of calls begun in the cache the returned calls left; a Size sees only states within the capacity; witness for Size |
| C100 | `S_Isolation.v`: the tale of a service (its beginning, its parent's tale and the calls on its own context, without contexts, queue room, draws and orders); the accounts and reports of the ledger (C63) are a function of the tale, by induction over the history; so two histories with the same tale give the same samples, xlogs, results and profiles. Counts that end stuck services are part of the tale of every service begun before them (exact ledger of `S_Sweep.v`) |
| C101 | `M_Stack.v`: the loop of StackTrace over what the runtime says of each program counter; `S_Stack.v`: one line per named function, readable. The loop appends lines (induction); a text of lines has one reading (first space, last colon); composed with the panic report of C89 and the collector's decoding of C11 |
| C102 | `L_Headers.v`: every call relates the packs sent before and after it (those before are a prefix, the new ones have the header of the call and the service's id), shown through the monad of M_Trace.v and then by induction over the history (`P_Headers.v`) |

The trusted base is filled in below as the files are written.

Properties whose unrestricted statement is false of the code keep that statement in `properties.jsonl`;
the theorem `Cnn_..._refuted` gives a counterexample and the other theorems of the same number prove what holds
(with the exact domain where there is one). Their status in MANIFEST.json is `partial`.

## Trusted base

1. Coq 8.16.1's kernel (and its conversion by `vm_compute` when building; `coqchk` re-checks without the VM), and the
   Coq standard library.
2. Axioms: every theorem file ends with `Print Assumptions` for each of its theorems. All are
   `Closed under the global context` except the ones that mention IEEE arithmetic through Flocq's rounding lemmas:
   `C33_value_window_integers`, `C34_rates`, `C34_real_rates`, `C36_gc_rates`, `C36_float_bits`, `C88_realtime`, `C88_five_minutes`,
   `C88_decodable`. These list the standard
   library's axioms for the classical real numbers: `ClassicalDedekindReals.sig_forall_dec`,
   `ClassicalDedekindReals.sig_not_dec`, `FunctionalExtensionality.functional_extensionality_dep`,
   `Classical_Prop.classic`. No axiom is added by this development, no kernel check is switched off.
3. The reading of the Go code: the model is hand written from the text of /repo. Each definition cites the lines.

### What is modelled

| code | model file |
|------|-----------|
| common/netdata/dataoutputx.go, datainputx.go | M_OutX, M_InX |
| common/netdata values, valuecreator | M_Value |
| packs, packcreator, accessors of map and perf packs | M_Packs, M_Access |
| steps | M_Steps |
| common/util hashutil, hexa32, strmatch, timeutil, osutil, iputil | M_Hash, M_Util, M_StrMatch, M_Files (paths and directories) |
| common/util/keygen | M_Key (its goroutine and channel) |
| common/panic.go, logger | M_Goid (Goid), M_Defer (recovering, reporting, what ends the process), M_Files (opening the log) |
| common/structure lra, cachemap, cachemap2, cacheset, their locks | M_Cache, M_RWLock, M_Values (GetValues step by step), M_Locks (all locks together) |
| netio/udpclient, udpsender | M_Udp (queue path), M_Net (both paths, sockets), M_NetLimit, M_Redirect (a change of address) |
| netio/dataproxy (text dictionary, queue) | M_Text |
| netio/profilecollector, tracecontext | M_Profile, M_ProfileConc |
| strace/tracemain, xlogsampler, tctxmanager | M_Trace, M_Calls, M_TraceConc, M_Sampler, M_SamplerConc |
| counter/*, task/countertask, task/agenttask | M_Float, M_Meter, M_MeterConc, M_Tasks |
| netio/tcpclient | M_Tcp |
| dump/dump.go | M_Dump, M_Profiling |
| conf/* | M_Conf, M_Maps (with the caches: who is inside a map when), M_Half (a refresh under way), M_Files (which file) |
| agent.go, channelfactory, the parts put together | M_Agent, M_Whole |

### What is assumed about the rest of the world

* Memory: 64-bit `int`; goroutine steps interleave (sequential consistency). Data races in the code are modelled as
  interleavings of single field accesses, not with the weaker guarantees of the Go memory model.
* A `sync.RWMutex` is the state machine of M_RWLock (a waiting writer blocks new readers); the operations of the caches
  are atomic where their lock makes them so. lra's `GetValues` is one step although the code releases the lock
  between two items.
* Go maps iterate in an arbitrary order: the association list's order is that order, and theorems quantify over it.
  The gods containers (linkedhashset, linkedhashmap) are insertion-ordered lists.
* `time.Now`, `rand`, the key generator, the room left in the UDP queue, file contents and directory listings are inputs.
  One clock reading per API call: the few calls that read the clock twice get the same value.
* A panic that is recovered inside an API call leaves the profile collector as before the call.
* UDP: the network may lose, duplicate and reorder datagrams; `Write` on a connected socket sends one datagram. Write
  errors of a TCP connection end the session (they are not modelled field by field).
* `magiconfig`/`properties` parsing is modelled for plain keys and values: `${...}` expansion, escapes and continuation lines
  of that library are not.
* File system: in M_Dump names are resolved lexically (no symbolic links, no permissions); M_Files has permissions, and C57, C58 and C93 are also
  proved for names followed component by component; the contents of the pprof profiles are
  an arbitrary byte string.
* Stack exhaustion and memory exhaustion are not modelled; of the run-time fatal errors, concurrent map accesses are M_Maps (C96).
* A refresh is one step except in M_Half (C95), where it is 66 assignments and a text has two words.

### What is not modelled

The format of log lines other than the texts of packs (`common/logger` is modelled up to opening its file and appending), `common/util/mathutil.go` and `fileutil.go` (used by
nothing in the agent), the contents of `runtime.MemStats` and of pprof profiles (arbitrary numbers and bytes), the tests. Of the start-up, `agent.go`'s
sequence is modelled (M_Agent, M_Whole, M_Defer for the registrations); the order in which Go initialises packages is not.
