# Formal model of criticalstack/swoll — design

Read-only source: `/repo` (Go, plus the eBPF C program `internal/bpf/probe.c`).
Everything below is checked by Coq 8.16.1; sources in `rocq/theories`.

## Layout

For each subsystem `X` there are up to four files:

* `XModel.v` – Gallina transcription of the code, function by function, every
  definition citing file and lines. No proofs.
* `XSpec.v` – the small specification vocabulary used by theorem statements
  (what a client sees), independent of the model's helpers.
* `XProofs.v` – invariants and lemmas.
* `XProps.v` – only the property theorems, each `exact lemma.`, followed by
  `Print Assumptions` and an `Example` showing that the hypotheses are met by a
  concrete, non-trivial case.

## Modelling conventions

* Go maps: std++ `gmap`, or association lists with a no-duplicate invariant when
  the value type is recursive. Iteration over a map is modelled by a relation that
  allows *every* order, or by quantifying over every permutation of the entries.
* Randomness (`rand.Int63n`): an extra argument of the operation, quantified.
* External code (sort.Sort, Kubernetes API, CRI, BPF map internals): functions or
  relations passed as explicit arguments with their contract as hypotheses of the
  theorem. No axioms, no Section hypotheses left open.
* Go `int` is `Z`; fixed-width integers are `Z` with the wrap written out
  (`mod 2^32`). Panics are explicit results (`Panic`), never silently totalised.
* Locks: a method whose whole body runs under one mutex is one atomic step.
  Where the code releases a lock in the middle (`liveJobs.add`) the model has one
  step per critical section and an explicit interleaving semantics.
* Properties that are false of the code are stated as `…_refuted` theorems (a
  reachable counterexample) next to the strongest true positive theorem.

## Plan per property

| Property | Model | Proof idea |
|---|---|---|
| C01, C02, C06 | `PubSub`: tree of nodes, envelopes, shard maps; Publish as a relation (any map order, any in-range random index); traversers as finite trees with "reuse" leaves | refinement to a multiset of (path, shard, name, id); induction on the histories and on traversal derivations |
| C03 | same, `sort.Sort` an oracle with `Permutation` + `Sorted` contract | uniqueness of the sorted permutation for distinct keys |
| C04 | same; WF invariant "every non-root node has a subscription below it" | invariant by induction on histories, tree characterised by its prefix-closed path set |
| C05 | same | `_refuted` witness for panic and for foreign removal, positive characterisation |
| C07 | stateful closure as a state machine | induction on the list of paths |
| C08, C10 | `Hash`: `hash`, `hashPath` | induction on lists; composition with C01 for delivery |
| C09 | table-driven CRC-64 as Go computes it, and its bitwise specification | table = bitwise (256 cases by computation, lifted); linearity over xor; a unit in GF(2)[x]/(p) cannot kill a polynomial of degree < 64, done as injectivity of the 64-bit step |
| C11, C12, C18 | `Hub`: nsmap/idmap as in hub.go with element identities | representation invariant by induction on operations |
| C13, C14, C26 | `Hub` × `Filter` × kernel filter | reference-count invariant; refutation trace with a stop |
| C15, C16, C17, C19, C20, C21 | `Hub`/`Job` event handlers incl. sampling counters | induction on registration lists and event sequences |
| C22, C23 | `Filter`: rules, options, maps | arithmetic on keys, map extensionality |
| C24, C25 | `Kernel`: `swoll__run_nfilter` | case analysis; counting induction |
| C27 | `Kernel`: enter/exit programs over a per-thread state map | invariant over arbitrary interleavings |
| C28, C29 | `Kernel`: metrics maps | ghost history counters as specification, induction |
| C30 | BPF hash map iteration: get_next_key over an arbitrary key order | induction on the order |
| C31, C32, C36, C37 | byte-level codecs | little-endian round trip lemmas; induction on bytes |
| C33, C34, C35 | `Decode`: the argument decoders on a flat byte buffer with explicit out-of-bounds results | case analysis per decoder, generic bound lemmas |
| C38, C39, C40 | flag tables as data + marshal/unmarshal | generic OR-of-subset lemma instantiated per table by computation |
| C41, C42 | `SyscallTable` (generated from consts.go) | finite-table facts by computation, lifted over permutations |
| C43, C44 | `Topology` | last-event specification, induction |
| C45 | `K8sObserver` | induction over callback sequences |
| C46 | `Alert` | invariant + episode grammar |
| C47, C48, C66 | `Ctl`: reconcile as a program of API calls, each done, failed or done without an answer | invariants over histories; refutation traces |
| C49, C50, C67 | `Server`: handlers as threads of critical sections interleaved with each other and with container events of the hub | invariants over every schedule; refutation schedules |
| C51, C52, C68, C42 (charts, scrape) | `Chart`: flow chart, word clouds, Prometheus collector; floats as rounded integers | every fold shown equal to a sum over the metric list; rounding shown nearest; error bound by induction |
| C53, C54, C69 | `Offset`: symbol parser, line scanner, the two regular expressions, votes, winner over any map order, Set, flags | texts related to lines and words by inductive relations; regular expressions proved equal to what they match; votes counted; winner shown most voted for every permutation of the map |
| C70 – C73 | `Client`: escaping, path cleaning, routing with StrictSlash, redirects, endpoint flags, job lists through JSON, the create loop and its goroutines as interleaved steps | escape/unescape inverse by a check of all 256 bytes and induction; route search inverted to the one route that gives an action; invariant over all schedules of the one-shot loop; refuting schedules for every number of endpoints |
| C55 | `Filter` rule options × `swoll__run_nfilter` | the keys the kernel looks up all carry a syscall; case analysis on the options |
| C57 | `Raw` | arithmetic on the packed words |
| C58, C59 | `Capture`: argument fillers × decoders | lemmas about fills of disjoint slots, a checker over both tables with a soundness proof; witnesses |
| C60 | `Codec`: name tables and socket options | a checker over each table (no duplicates, no name that reads as a number) with a soundness proof; every permutation of the table as map order |
| C61–C63 | `Json`: the trip of a whole event through JSON | UTF-8 specified from RFC 3629 and related to Go's replacement rule by strong induction; per-member equivalence lifted to the event |
| C64, C65 | `Observe` composed with `Topo` | induction over informer histories; the observer's cache equals a memory defined from the history |
| C56 | `Thread`: start callbacks as instruction lists, schedules | invariant over every schedule (each touched rule is still to be added); ownership invariant for the converse; refutation schedule |
| C74 – C76 | `Probe`: the choice of the object as a function of the environment; histories of probe calls with the outcome of each gobpf call as an input; the select loop as a function of what it takes; reader, poller and consumer as interleaved steps | case analysis; readiness characterised by induction over histories; invariants over histories and schedules; refutations for every failure point and every continuation |
| C77, C78 | `Top`: ticks as folds over the metrics with float64 rounding, rows over any permutation of the counters, the RWMutex with waiting writers as interleaved steps of three goroutines | induction over ticks and metrics, with a bound under which floats are exact; sums over maps by permutations; invariant of the lock and a case analysis of its states |
| C79 | `Self`: the test as a function of a record of the system's answers, the scanner and the expression on whole texts | case analysis; the line expression shown equal to a grammar, reusing the scanner lemmas of `Offset` |
| C80, C81 | `Lock`: goroutines as lists of lock operations on the hub's mutex and the RWMutex of the tree (with waiting writers), one operation per step, a log of what an observer sees | invariants that give each goroutine's place in its program and what it holds; progress by cases on who is inside; fair rounds by a decreasing count of operations; stuck states closed under every step |
| C82 – C85 | `Watch`: each websocket connection with its reader, its ping loop and its callback over `PubSubModel`, time in milliseconds, a log of what clients see | an invariant ties the log (streams, calls, writes) to the subscription tree, using the delivery theorems of C01; timers by invariants on deadlines; the crash by induction on the milliseconds to the ping |
| C86 – C89 | `Agent`: a trace, the arguments the controller makes of it, and `swoll client create` reading them back (CSV reader and writer, flags, label selectors, label validation) down to the requests | round trips by induction on the texts, the validators proved equal to the documented label grammar; the refutations are general statements about all lists of two or more |
| C90 – C92 | `Line`: showMsg, the Arguments and CallName methods of all 59 calls (generated from the sources), padding, colours, float64 difference of times; prototypes from man 2 as the specification | the table is checked by computation against the prototypes and the documented members (C35), then composed with the capture theorems for all registers and memories; line feeds by induction on what fmt writes; rounding by the lemmas of `Chart` |
| C93 – C95 | `Msg`: encoding/json's text of an event (escapes, base64, field order of all 59 argument structs, generated from the sources); `Stream`: the client's reader, writer and output of a watched job with times | lengths by induction on the text, the bound per struct checked by computation over the decoders' table; readers of RFC 8259 strings and RFC 4648 base64 as the specification; `Stream` by invariants over histories, refutations by concrete histories whose cuts are all checked |
| C96 | `Read`: a reader of JSON texts and the value each event must have, over `Msg` | the text is that of a tree; a reader of a tree's text gets the tree, by induction on the text; the field tables are checked by computation |
| C97 | `Plain`: the rules installed and the printing loop, over `Filter`, `Kernel`, `Capture`, `Decode`, `Line` and `Msg` | the rules are one per named call and stay so in every history; with them the verdict of the kernel's filter is membership of the call in the list; the loop by induction on the records |
| C98 | `Live`: one run of `swoll trace` as a history of observer reports, task steps and reads, over `Hub`, `Filter`, `Kernel`, `Raw`, `Capture`, `Decode`, `Line` and `PubSub` | the hub's registrations and the kernel's rules as functions of the reports so far (invariants), the kernel's verdict from the rules, the ring by induction; counting of publications; examples for the refutations are runs derived from the same theorems |
| C99, C100 | `Select`: observers' settings, the job's copy of them, the selectors' texts, and the API server's reading of them (lexer and parser of label selectors, field selectors) over pods; for C100 joined with `Live` | lexing and parsing of any list of terms by induction, permutation of the sorted pairs; C100 from C98 with every report justified by a pod; the refutations are runs derived from C98's theorems |
| C101-C103 | `Text`: the String methods behind the printed line, fmt's %v of structs, os.FileMode.String, and %6.3f of the float64 latency, as the printer `Line` left open | documented tables in `TextSpec.v`; bits of masks; Permutation for map order; printf against the struct's shape by induction; rounding to nearest even is within a half and monotone |
| C104 | nothing new: `Live` and `Plain` with the printer of `Text`, which may differ from line to line | composes C98/C97 (which event), C35/C58 (the record), C90/C91 (labels and form), C101-C103 (texts); the kernel's errno headers in `WholeSpec.v` |
| C105 | `Serve`: one run of `swoll server` as a history of task steps, observers of the hub and of each job, deletions, reads, publishes path by path, callbacks and client steps, over `Live`, `Hub`, `Msg`, `PubSub` and `Watch` | frame conditions for the machine's part, the hub's registrations as a function of the history, one invariant tying the event being published to the clients' streams; progress by the same invariants; the concrete session is a run derived from them |
| C106 | `Scrape`: a scrape of the server of `Serve`, over the walk of `Walk` and the answers of `Chart`; each look at the kernel's map and each lookup at a moment of its own | what each step does to the filter gives the rules held, so metrics are on exactly where the hub said; induction over the history for the counters, counted by positions of the history; then the walk and the gathering lemmas; the refutations are runs that exist because simple steps never end the server |
| C107 | `TopLive`: the ticks of `Top` over the walk of `Walk` and the machine and hub of `Serve`, which here has neither jobs nor clients | the counters of `Scrape` (C106) at the moment of each look; the last count read under some names (C77); for the graphs, sums of disjoint sets of steps; no record is sent because a sent one needs a job in force (C105) |
| C108 | `Deep`: the generated DeepCopy functions over a memory with addresses, with those of apimachinery they call; programs that load, store, allocate and reslice what they hold | a frame lemma for readers by induction on types; each statement of the generated code is a copier of its type, structs field by field; a region no held value points into stays as it is |
| C109 | `Print`: the event UnmarshalJSON makes (`Json`), the line of the create command, the watch line with fmt's %s over the struct of each of the 59 calls | the client's members are the server's (C63) and a table over all calls shows that both find the same; lines are split at the first and last escape character; the two tables of printed members are aligned call by call |
| C110 | `Unmarshal`: json.Unmarshal of a message into TraceEvent: the event's members, the switch over the call, the UnmarshalJSON methods, structs and socket addresses from their numbers | the text is read by C96; each shown argument is read back by its kind (names are ASCII: a check over all tables; numbers of structs are put together to the bytes), then member by member as in `Json` |
| C111 | `Through`: the texts of `Serve` (C105), read by `Unmarshal` (C110), through `Stream` (C94), printed by `Print` (C109) | composition: the text written is the message of the record sent; the client's own map orders do not matter (names are distinct); a prefix of the messages gives a prefix of the events; counting |
| C112, C113 | `Log`: the event in the client's memory, its text again, the log line, and pretty_logs | the client's memory holds what the text shows (C110's tree); for surviving values writing is inverse to reading; texts of trees are one line; the scanner cuts a concatenation of lines where they end; printing as in C109 |
| C114 | `Fleet`: any number of servers of `ServerModel.v` and one command after the other over a list of them | every server of a fleet has a history of its own, so C49's and C67's lemmas apply to it; invariant of the command at work over what was seen since it started |
| C115 | `ClientModel.v`'s router | a clean path is its components (all good names), patterns are matched by filling in their variables; the table of URLs is the relation `leads` |
| C116 | `Query`: the list command over the servers of `FleetModel.v` | invariant over the command's history: what a waiting request has been answered were the tables of its server at a moment of the history; servers that are down stay down |
| C117 | `Life`: phases of the listening server (serving, closing, gone) with the requests and websockets it holds | invariant over histories: the phase tells when the first interrupt came; an unanswered request is still held |
| C118 | nothing new: an unnamed trace is a job of `Hub` with the empty id | C12 and C15's lemmas; a stream path with an empty component is a prefix of every job's path |
| C119 | `Lib`: the filter's calls a program makes itself, over `Filter` and `Kernel` | invariant: the switch is off, as no rule's type is the switch; with Enable the maps are those of C97 |
| C120 | `Asset`: the table and tree of the embedded object, a file system as a map from paths | names by inversion of the replacement; restoring several is restoring one; induction over the directories made |
| C121 | `Rule`: the texts of filter.go, over `Lib`, `Filter` and `Walk` | invariant: flags, call and action of every rule in the map have their own text; the parts have no comma, so the text is cut at commas |
| C122 | nothing new: the selectors of `Select` | the texts of conditions are lexed to their tokens and parsed to their requirements by induction on the list; what meets a requirement against the documented meaning |

## Not expressible in the model (by design)

* Real BPF verifier/loader behaviour, perf ring-buffer loss, Kubernetes API
  server, HTTP transport, terminal output, chart HTML rendering by the chart library: outside the
  source being modelled or pure I/O glue.
* Go data races (memory model): methods are atomic at the granularity of their
  critical sections.

## Trusted base

* Coq's kernel (8.16.1) and, for the theorems whose proofs compute with
  `vm_compute`, its virtual machine. `coqchk` re-checks everything without it.
* No axioms. `Print Assumptions` after each property theorem prints `Closed under
  the global context` for every one of them. Libraries used: Coq's standard library
  and std++ 1.8 (no axioms of theirs are used by any theorem).
* That the Gallina definitions say what the cited Go and C lines say. Each
  definition carries its citation; what was simplified is said in that comment.

## What is modelled, what is not

| Code | Where | Left out |
|---|---|---|
| internal/pkg/pubsub | `PubSubModel.v` | the RWMutex (methods are atomic; `LockModel.v` shows that they are), the writer side of user callbacks |
| pkg/topology/hash.go, CRC-64 | `HashModel.v` | – |
| pkg/syscalls (table, lookups) | `SyscallModel.v`, `SyscallTable.v` (generated from consts.go) | the class lists' texts |
| pkg/kernel/filter.go, internal/bpf/probe.c filter | `FilterModel.v` | user-space map I/O errors other than a full map |
| pkg/topology/hub.go, job.go | `HubModel.v`, `ThreadModel.v` | logging, contexts, the completion time; the goroutine that runs the probe |
| internal/bpf/probe.c tracepoints, metrics | `KernelModel.v` | each program run is one atomic step (one theorem shows what a race does); byte-level argument capture is in `CaptureModel.v` |
| metrics/handler.go, Filter.GetRunning | `WalkModel.v` | the library's LookupNextElement is modelled from its documentation |
| struct swoll_event, pkg/event/raw.go, pkg/types/c.go, sockaddr.go | `RawModel.v` | SockAddr in JSON is in `JsonModel.v` |
| pkg/event/call/*.go DecodeArguments, DecodeSyscall, TraceEvent.Ingest | `DecodeModel.v` | the attached container (see `Topology`); Arguments() texts |
| internal/bpf/probe.c argument fillers | `CaptureModel.v` | kernels that read less than asked (`bpf_probe_read` is all or nothing) |
| pkg/event/call flag, name and option types (MarshalJSON, UnmarshalJSON), errno names | `CodecTables.v` (generated from the Go tables), `CodecModel.v` | – |
| TraceEvent.MarshalJSON/UnmarshalJSON, SockAddr on the client | `JsonModel.v` | encoding/json's treatment of numbers, arrays and base64 (trusted to be lossless); the container member |
| pkg/topology/topology.go, pkg/types/container.go Copy | `TopoModel.v` (with a heap) | logging; context cancellation |
| pkg/topology/kubernetes.go Run, criContainers, containersForPod | `ObserveModel.v` | connecting to the CRI and the API server; what the informer calls is taken as given |
| internal/pkg/alert queue.go, prometheus.go | `AlertModel.v` | HTTP handling, the wire format of the webhook message |
| internal/pkg/controller/trace.go Reconcile | `CtlModel.v` | the API server is an object store with versions, finalizers and second-precision times; host selection and the job specification itself |
| cmd/server.go job table, create/get/delete handlers | `ServerModel.v` (over `HubModel.v`) | HTTP, JSON and websocket handling; undecodable bodies; `log.Fatal` in MustRunJob |
| pkg/kernel/offset_helper.go, offsets.go, cmd/offsetter.go, probe.c 1033-1062 | `OffsetModel.v` | running objdump and opening files are inputs; non-ASCII white space and word characters; overflow of ParseInt is tested at the end instead of per digit |
| pkg/client/endpoint.go, cmd/client.go, routes of cmd/server.go | `ClientModel.v` | the network, TLS and websocket traffic, encoding/json beyond texts; net/url, gorilla/mux and net/http follow their sources; hosts that need escaping; label selectors are left as parsed pairs |
| cmd/server.go charts (430-727, 824-886), cmd/prometheus.go | `ChartModel.v` | HTML rendering (go-echarts); infinite floats; the registry's rule on duplicate series is taken from client_golang's documentation; concurrent renders |
| cmd/loader.go, pkg/kernel/probe.go, pkg/event/reader/kernel.go | `ProbeModel.v` | gobpf and the file system are inputs; Close is taken to detach everything; nil probes and nil callbacks |
| cmd/top.go | `TopModel.v` | rates (go-metrics), rendering (termui), the data race on a counter between a tick and an update; dead code (mergeStatsByKey, lookup, fixedRateArray) |
| cmd/selftest.go | `SelfModel.v` | the system calls are inputs; log messages |
| the locks of pkg/topology/hub.go and internal/pkg/pubsub | `LockModel.v` | what the sections do (see `HubModel.v`, `PubSubModel.v`); readers that wait may be overtaken by a second writer, which Go does not allow; the observer's and the filter's own locks |
| the watchers of cmd/server.go | `WatchModel.v` | gorilla/websocket is its documented contract (writes fail after Close or a failure, block until the peer takes them, the deadline passes or the connection closes; two writers at once panic); pings never block; the upgrade; the JSON written |
| internal/pkg/controller/trace.go createJobResource, cmd/controller.go endpoints, cmd/client.go create | `AgentModel.v` | encoding/csv, pflag 1.0.5 (long flags) and apimachinery 0.18 labels and validation follow their sources; Kubernetes' $(NAME) expansion, flags of root.go, --file and one-letter flags are left out; of the API server's checks only those that depend on the trace |
| cmd/trace.go showMsg, pkg/event/call Arguments and CallName, pkg/event/trace.go Latency | `LineModel.v` | flag sets, named numbers, file modes and structs are written by a parameter, and so are the three decimals of the latency: `TextModel.v` fills it in; JSON output is a parameter; fatih/color 1.9.0 with colours on or off |
| encoding/json's text of pkg/event TraceEvent, cmd/server.go 214, 253 | `MsgModel.v` | the memory behind an event's buffer, its address and the order of loops over Go maps are parameters; a buffer of negative length or beyond readable memory ends the process |
| pkg/client/endpoint.go 138-237, cmd/client.go 77-141 | `StreamModel.v` | gorilla/websocket 1.4.2 as: read limit, read deadline not applied to buffered bytes, writes fail after a close message; fragments are not modelled |
| cmd/trace.go 53-56, 205-262 (`--no-containers`) | `PlainModel.v` | loading the probe, the perf reader's goroutine (C33) and the debug dump of the rules are left out |
| cmd/trace.go 81-205, pkg/topology/hub.go 90-330 (`swoll trace`, composition of the models of their parts) | `LiveModel.v` | the goroutines' schedules inside one report (C21, C72), the probe's loading, JSON output (C97), log lines |
| pkg/topology/kubernetes.go 26-193, job.go 92-95, 132-149, cmd/trace.go 58-98, 164-175, cmd/server.go 784-793, cmd/top.go 422-429 | `SelectModel.v` | the API server is apimachinery 0.18 (labels, fields) and the fields of core pods, by their sources; pods do not change; connecting, and whether the CRI socket exists |
| pkg/types/{cloneflags,xmode,fileflags,umountflags,msgflags,clocktypes}.go String, pkg/event/call/{mount,mprotect,inotify_add_watch,ptrace,prlimit64,socket,sockopt,accept}.go String, event/trace.go 214-220, cmd/trace.go 131-137 | `TextModel.v` | Go's fmt (%v of integers, structs, arrays, pointers to structs; %6.3f), os.FileMode.String and float64 division are modelled from their documentation |
| cmd/server.go 727-903 (the loop, its observers and handlers together), pkg/topology/hub.go 190-252, job.go 232-245 | `ServeModel.v` | the log lines and metrics of the server; making a job over HTTP is in `ServerModel.v`, pods and observers in `SelectModel.v`; the stop branch of a job does not wait for the hub's lock, everything else of the hub does |
| cmd/server.go 824-831, cmd/prometheus.go 51-94 on the server's maps, pkg/topology/topology.go 102-112 | `ScrapeModel.v` | the time series (`C29`, `C68`); client_golang, as in `ChartModel.v` |
| cmd/top.go 434-443, 483-490 on the hub's maps | `TopLiveModel.v` | the screen and the rates, as in `TopModel.v`; the flags |
| api/v1alpha1/zz_generated.deepcopy.go | `DeepModel.v` | apimachinery 0.18's ObjectMeta, ListMeta, LabelSelector and their parts follow its generated code; a struct is stored when finished; a time is a value; DeepCopyInto with the same pointer twice |
| cmd/client.go 110-140, 287-333, pkg/event/trace.go 53-61, errno.go 14-20 | `PrintModel.v` | fmt's %s of a struct; the format json of create is in `LogModel.v` |
| pkg/client/endpoint.go 223-227, pkg/event/trace.go 63-209, the UnmarshalJSON methods of pkg/types and pkg/event/call | `UnmarshalModel.v` | the scanner of encoding/json is `ReadSpec.read_json`; duplicate keys, the ranges of integers and missing arguments are left out |
| cmd/client.go 275-333 with `-o json`, hack/tools/pretty_logs.go | `LogModel.v` | labels kept in ascending order; a log that contains half a line is not spoken of |
| cmd/client.go 51-75, 262-268; pkg/client/endpoint.go 90-136, 248-266 over several endpoints | `FleetModel.v` | one command at a time; ids are those that paths keep as they are (others: `ClientModel.v`); a create's body is decoded by the server |
| cmd/client.go 35-49, 350-377; pkg/client/endpoint.go 298-315, 332-361 over several endpoints | `QueryModel.v` | one list command, next to those of `FleetModel.v`; the text of a trace in JSON |
| cmd/server.go 771-775, 888-903, 925-942 with net/http's Shutdown | `LifeModel.v` | time in whole seconds; keep-alive connections without a request are closed at once; idle-connection polling is the action Look |
| examples/basic-trace/main.go 23-45, examples/kubernetes-basic/main.go 23-67 (the filter only); pkg/kernel/probe.go 119-129 | `LibModel.v` | what the callbacks print; the topology of kubernetes-basic |
| examples/kubernetes-hub/main.go 25-224 | none: RunTrace, AttachTrace and the hub are in `HubModel.v` and `HashModel.v` (`UnnamedProps.v`) | the printing |
| pkg/kernel/assets/compiled.go 75-223, loader.go 13-20 | `AssetModel.v` | the object's bytes are a parameter; paths given as components; links, search permissions, a full disk and concurrent programs |
| pkg/kernel/filter.go 333-388; pkg/topology/hub.go 303-312 and cmd/trace.go 265-272 (the report) | `RuleModel.v` | the log line around the text |
| server, websocket and client together | `ThroughSpec.v` | the websocket delivers a prefix of the texts, in order; nanosleep's addresses are left out of the last part |

### Code without a model

* Not compiled into any program: pkg/event/call/ioctl.go and epoll.go (`+build
  ignore`), hack/tools/tools.go (imports only).
* Not used by any program: call.FunctionHandle (pkg/event/call/function.go),
  types.PtraceFlags (pkg/types/ptraceflags.go), reader.EmptyReader
  (pkg/event/reader/reader.go).
* Types and one-line accessors, used where the models use their fields:
  api/v1alpha1/groupversion_info.go and trace_types.go, pkg/types/buffer.go, fd.go,
  flags.go and dirfd.go, pkg/event/event.go and types.go, pkg/kernel/metrics/metrics.go,
  internal/pkg/alert/alert.go and parser.go, main.go, doc.go files.
* Data: the bytes in pkg/kernel/assets/compiled.go (the compiled probe; its source
  internal/bpf/probe.c is modelled), pkg/kernel/ross/bob.go (quotations), kernel
  headers copied to internal/bpf, config/, charts, Makefiles, container images.
* Input of the models: pkg/topology/ns.go reads namespace numbers from /proc; its
  results are arguments of `ObserveModel.v`.
