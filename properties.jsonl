{"id": "C01", "title": "Publish reaches exactly the subscriptions on the published path", "statement": "After any history of Subscribe/Unsubscribe calls, Publish along a linear path delivers the datum exactly once to every live un-sharded subscription whose path is a prefix of the published path, and to no other un-sharded subscription.", "quantifier": "every subscribe/unsubscribe history, every random id the library draws, every map iteration order, every published path", "why_tests_cant": "The tree shape, the id collisions and the iteration order range over unbounded sets; a test fixes one of each.", "anchors": ["internal/pkg/pubsub/pubsub.go:Subscribe,Publish,traversePublish,LinearTreeTraverser", "internal/pkg/node/node.go:AddChild,AddSubscription,ForEachSubscription"]}
{"id": "C02", "title": "A shard group receives each datum exactly once", "statement": "For every live shard group (non-empty shard id at one path) on the published path exactly one of its members is called, the chosen index is always in range, and a group on no published path is never called.", "quantifier": "every history, every value the random source may return within its contract, every hash function", "why_tests_cant": "The choice is random and the group membership is history dependent.", "anchors": ["internal/pkg/pubsub/pubsub.go:traversePublish,determineIdx,WithShardID"]}
{"id": "C03", "title": "Deterministic routing is a function of the datum and the group", "statement": "If some member of a shard group has a routing name and the names in the group are pairwise distinct, the member that receives a datum is determined by the datum's hash and the set of names alone, whatever the order in which members joined or left and whatever sort.Sort does with the input order.", "quantifier": "every pair of histories that end in groups with the same distinct names, every sorting outcome allowed by sort.Sort, every hash", "why_tests_cant": "Requires equality over all pairs of histories and over the unspecified behaviour of an unstable sort.", "anchors": ["internal/pkg/pubsub/pubsub.go:determineIdx,WithDeterministicRouting", "internal/pkg/node/node.go:AddSubscription,envelopes.Less"]}
{"id": "C04", "title": "Unsubscribe removes exactly one subscription and prunes the tree", "statement": "Calling an unsubscriber once removes exactly its own subscription, leaves every other subscription in place, and afterwards the tree has exactly the nodes that are prefixes of live subscription paths, so when every subscriber is gone the tree is the one New() made.", "quantifier": "every history in which each unsubscriber is called at most once", "why_tests_cant": "Leak freedom and non-interference quantify over all histories.", "anchors": ["internal/pkg/pubsub/pubsub.go:cleanupSubscriptionTree", "internal/pkg/node/node.go:DeleteSubscription,DeleteChild"]}
{"id": "C05", "title": "What a second call of an unsubscriber does", "statement": "A second call of an unsubscriber is a no-op exactly when the subscription's node is still there and its id has not been drawn again; if the node was pruned the call panics with a nil dereference, and if the id was re-drawn it removes somebody else's subscription.", "quantifier": "every history and every later double call", "why_tests_cant": "The outcome depends on the whole history between the two calls and on the random ids.", "anchors": ["internal/pkg/pubsub/pubsub.go:Subscribe,cleanupSubscriptionTree", "internal/pkg/node/node.go:ChildLen,createAndSetID"]}
{"id": "C06", "title": "Multi-path traversal delivers once per visit", "statement": "Under an arbitrary finite TreeTraverser (several branches, nil traversers that reuse the current one) an un-sharded subscription at path q is called exactly as many times as the traverser yields q; Publish terminates on every tree.", "quantifier": "every tree, every finite-branching traverser", "why_tests_cant": "Recursion over traversers times trees is unbounded.", "anchors": ["internal/pkg/pubsub/pubsub.go:traversePublish,FlatPaths,PathsWithTraverser,PathAndTraversers"]}
{"id": "C07", "title": "CombinePaths concatenates its inputs, once", "statement": "Driven with idx = 0,1,2,... as Publish does, CombinePaths(p1..pn) yields the entries of p1, then p2, ... in order and then stops; after one full traversal the same value yields nothing.", "quantifier": "every list of finite Paths", "why_tests_cant": "The closure is stateful; the property is about the whole call sequence for all inputs.", "anchors": ["internal/pkg/pubsub/pubsub.go:CombinePaths"]}
{"id": "C08", "title": "Stream paths nest: a shorter selector sees everything below it", "statement": "Attaching to (namespace), (namespace,pod), (namespace,pod,container) or (\u2026,syscall) receives every event whose leading components are equal, whatever strings those components are, as long as no selecting component is empty.", "quantifier": "all strings", "why_tests_cant": "Ranges over all component strings.", "anchors": ["pkg/topology/hash.go:hashPath", "pkg/topology/hub.go:AttachPath,WriteEvent"]}
{"id": "C09", "title": "CRC-64 component hash: distinct short components do not alias", "statement": "The component hash never returns 0, and two distinct components of equal length of at most 8 bytes collide only if their checksums are 0 and 1; hence two distinct 8-character ASCII job ids (what `swoll trace` generates) always get different stream paths and never see each other's events.", "quantifier": "all byte strings of equal length <= 8 (2^64 strings)", "why_tests_cant": "2^128 pairs; needs an algebraic argument about CRC-64/ECMA.", "anchors": ["pkg/topology/hash.go:hash,crcTable", "cmd/trace.go:JobID", "pkg/topology/hub.go:AttachTrace"]}
{"id": "C10", "title": "An empty component widens the subscription", "statement": "hashPath stops at the first empty component: an AttachTrace for the empty job id receives the events of every job, and an AttachPath with an empty namespace ignores the pod and container it was given.", "quantifier": "all strings, all job histories", "why_tests_cant": "It is a statement about all later events.", "anchors": ["pkg/topology/hash.go:hashPath", "pkg/topology/hub.go:AttachTrace", "cmd/server.go:traceWatchHandler"]}
{"id": "C11", "title": "The hub's two job indexes always agree", "statement": "After any sequence of PushJob and DeleteTrace calls, the jobs found under (pid namespace, syscall) and the jobs found under a job id are the same registrations; no (ns,nr) bucket is empty; so DeleteTrace never reaches its log.Fatal, and never skips a registration.", "quantifier": "every sequence of PushJob/DeleteTrace", "why_tests_cant": "An invariant over unbounded histories.", "anchors": ["pkg/topology/hub.go:PushJob,DeleteTrace,findJobList,findJobListByID,clearJobList"]}
{"id": "C12", "title": "Deleting a job removes all of it and nothing else", "statement": "DeleteTrace(id) removes every registration of id, and for every (ns,nr) the remaining registrations are the old ones of the other jobs in the old order; it fails with \"job not found\", changing nothing, exactly when id has no registration.", "quantifier": "every reachable hub state, every job id", "why_tests_cant": "Non-interference over all histories.", "anchors": ["pkg/topology/hub.go:DeleteTrace"]}
{"id": "C13", "title": "Kernel rules are reference counted across PushJob/DeleteTrace", "statement": "Over any history in which each PushJob is followed by its AddSyscall, the kernel filter has the rule for (ns,nr) exactly while at least one job is registered for (ns,nr).", "quantifier": "every history of pushes and deletes over any set of jobs, namespaces and syscalls", "why_tests_cant": "Reference counting is a whole-history property.", "anchors": ["pkg/topology/hub.go:DeleteTrace,PushJob", "pkg/topology/job.go:Run", "pkg/kernel/filter.go:AddSyscall,RemoveSyscall"]}
{"id": "C14", "title": "A container stop drops rules other jobs still need", "statement": "When a container stops, every job whose selector matched it removes its kernel rules for that pid namespace without looking at the other registrations; the hub's index keeps the registrations. The reference-counting property C13 therefore fails as soon as two registrations share (ns,nr) and one of them sees a stop, and stays true as long as no stop happens.", "quantifier": "every history with container stops", "why_tests_cant": "Requires exploring histories with arbitrary start/stop orders.", "anchors": ["pkg/topology/job.go:Run (EventTypeStop)", "pkg/topology/hub.go:DeleteTrace"]}
{"id": "C15", "title": "Events are routed to exactly the jobs registered for them", "statement": "An event from pid namespace ns for syscall nr is published once to its namespace stream if at least one job is registered for (ns,nr) and otherwise not at all, and then to the job stream of each registration for (ns,nr), in registration order; no other job stream sees it.", "quantifier": "every hub state, every event", "why_tests_cant": "All events times all hub states.", "anchors": ["pkg/topology/hub.go:Run,WriteEvent", "pkg/topology/job.go:WriteEvent"]}
{"id": "C16", "title": "Exactly-once delivery needs exactly-once registration", "statement": "A job stream receives an event as many times as the job is registered for that (ns,nr); a job is registered twice as soon as its observer reports a start for the same pid namespace twice, or its spec lists a syscall twice, so each event is then delivered twice.", "quantifier": "every start/stop history", "why_tests_cant": "Depends on the observer's whole history.", "anchors": ["pkg/topology/job.go:Run", "pkg/topology/hub.go:PushJob"]}
{"id": "C17", "title": "Sub-sampling rates", "statement": "If an un-sampled job shares the (ns,nr), or the job is the only one, a job with rate r gets exactly every r-th event it is offered. If the lowest rate is l>0 and another job has rate r>l, it gets every (r-l)-th event instead (the documented example r=2,4 with l=1 is therefore not what happens); if two jobs have the same lowest rate the second one divides by zero and the hub panics.", "quantifier": "every set of registrations and rates, every number of events", "why_tests_cant": "Counts over unbounded event sequences.", "anchors": ["pkg/topology/job.go:WriteEvent", "pkg/topology/hub.go:findLowestSampleJob"]}
{"id": "C18", "title": "Lowest-rate selection", "statement": "findLowestSampleJob returns the first registered context of minimal sample rate for (ns,nr), and nothing when none is registered; it never dereferences an empty list in a reachable state.", "quantifier": "every reachable hub state", "why_tests_cant": "Needs the no-empty-bucket invariant.", "anchors": ["pkg/topology/hub.go:findLowestSampleJob"]}
{"id": "C19", "title": "The kernel rule of a sampled job is not sampled", "statement": "After a container start is processed by a job with a positive sample rate, the rule in the kernel map for each of its syscalls has sample rate 0, because AddSyscall overwrites what AddSampledSyscall wrote (it is not the no-op its comment claims).", "quantifier": "every hub and filter state, every rate, namespace and syscall list", "why_tests_cant": "The claim is about all states the start event may find.", "anchors": ["pkg/topology/job.go:Run (EventTypeStart)", "pkg/kernel/filter.go:AddRule,AddSyscall,AddSampledSyscall"]}
{"id": "C20", "title": "A deleted job comes back", "statement": "DeleteTrace does not cancel the job's observer: the next start event the job's observer reports registers it again, with its kernel rules, and events flow again; and a job none of whose containers has started yet cannot be deleted at all.", "quantifier": "every state after a delete, every later start", "why_tests_cant": "A liveness-of-bug claim over all continuations.", "anchors": ["pkg/topology/hub.go:DeleteTrace", "pkg/topology/job.go:Run", "cmd/server.go:deleteJob"]}
{"id": "C21", "title": "Monitored-host bookkeeping", "statement": "MonitoredHosts(true) lists exactly the hosts ever added or removed; MonitoredHosts(false) lists those added and never removed since: a host that is removed once is never listed as monitored again, although it restarts.", "quantifier": "every AddContainer/RemoveContainer history", "why_tests_cant": "Whole-history property.", "anchors": ["pkg/topology/job.go:AddContainer,RemoveContainer,MonitoredHosts,createJobKey"]}
{"id": "C22", "title": "Rules with different subjects have different kernel keys", "statement": "For syscalls in the table and pid namespaces in 0..2^32-1 (the kernel's range), AddSyscall/AddMetrics of different (mode, syscall, namespace) write different map keys, so adding or removing one never touches another; outside that range namespaces alias modulo 2^32 and -1 means 'any'.", "quantifier": "all integers ns, all syscall numbers", "why_tests_cant": "Key construction truncates; must be checked for all values.", "anchors": ["pkg/kernel/filter.go:NewFilterRule,FilterRuleSetPidNamespace,AddSyscall,AddMetrics"]}
{"id": "C23", "title": "RemoveSyscall undoes AddSyscall; RemoveMetrics does not undo AddMetrics", "statement": "After AddSyscall(nr,ns), RemoveSyscall(nr,ns) leaves every other rule as it was and removes that one, whatever happened before. After AddMetrics(ns), RemoveMetrics(ns) never removes the rule (the add rewrites syscall 0 to -1, the remove does not), so a namespace once added is collected for ever.", "quantifier": "every filter state, every namespace", "why_tests_cant": "All prior states.", "anchors": ["pkg/kernel/filter.go:AddRule,DelRule,AddMetrics,RemoveMetrics", "pkg/topology/hub.go:Run"]}
{"id": "C24", "title": "In-kernel filter decision", "statement": "A syscall passes the in-kernel filter iff filtering is enabled and the first of the five candidate keys (ns; ns+pid+syscall; ns+syscall; pid+syscall; syscall) whose type is configured and that is present has action allow and its sample counter lets it through; everything else is dropped, and a drop by a rule is final.", "quantifier": "every rule map, config map, task and syscall", "why_tests_cant": "Decision over arbitrary maps.", "anchors": ["internal/bpf/probe.c:swoll__run_nfilter,swoll__is_filter_enabled"]}
{"id": "C25", "title": "Kernel sampling counts", "statement": "Of the first n hits of a rule with sample rate r>0 (n<2^32), exactly the first and every r-th are passed: n/r + 1 if r>1 and n>=1 (n if r=1); rate 0 passes all.", "quantifier": "all n, all rates", "why_tests_cant": "Counting argument over unbounded hit sequences.", "anchors": ["internal/bpf/probe.c:swoll__run_nfilter"]}
{"id": "C26", "title": "End to end: what the kernel emits is what some job asked for", "statement": "In a hub built by NewHub, after any history of job pushes and deletes, the kernel passes a syscall event of (ns,nr), ns in 1..2^32-1, iff some job is registered for (ns,nr).", "quantifier": "every history, every task", "why_tests_cant": "Composition of two unbounded state machines.", "anchors": ["pkg/topology/hub.go:NewHub,PushJob,DeleteTrace", "pkg/kernel/filter.go", "internal/bpf/probe.c:swoll__run_nfilter"]}
{"id": "C27", "title": "An emitted event pairs an exit with its own entry", "statement": "For any interleaving of threads in which each thread alternates entry and exit, every event emitted at sys_exit carries the arguments, timestamp and ids recorded at that same thread's immediately preceding sys_enter of the same syscall, at most one event is emitted per entry, and an entry the filter dropped emits nothing.", "quantifier": "every interleaving of any number of threads, every filter history", "why_tests_cant": "Interleavings are unbounded.", "anchors": ["internal/bpf/probe.c:swoll__enter,swoll__exit,swoll_state_map"]}
{"id": "C28", "title": "Metrics counts are exact", "statement": "For every (namespace, syscall, errno) with 0<errno<255 the metric count equals the number of monitored exits with that errno; the errno-0 entry counts all other exits; and the counts of a (ns,syscall) sum up to its number of monitored exits.", "quantifier": "every sequence of syscall entries and exits of any threads", "why_tests_cant": "Unbounded event sequences.", "anchors": ["internal/bpf/probe.c:swoll__fill_metrics,swoll__update_metrics,swoll__update_metrics_ktime"]}
{"id": "C29", "title": "Metrics time attribution", "statement": "With one call in flight per (ns,syscall) and errno<255 the time of an entry grows by exactly exit-entry per call after the first occurrence of each errno; the first call of each non-zero errno contributes 0. A return value that is negative as a 32-bit int but not an errno (e.g. -ERESTARTSYS, a high mmap address) instead adds the whole kernel uptime.", "quantifier": "every sequential history, all timestamps and return values", "why_tests_cant": "All timestamps and histories.", "anchors": ["internal/bpf/probe.c:swoll__update_metrics"]}
{"id": "C30", "title": "Map walks: QueryAll and PruneNamespace", "statement": "On a map nobody else modifies, QueryAll returns every metric exactly once unless the all-zero key is present, and PruneNamespace(ns) deletes exactly the entries of ns and returns their number under the same condition.", "quantifier": "every map content and every internal key order", "why_tests_cant": "All orders and contents.", "anchors": ["pkg/kernel/metrics/handler.go:QueryAll,PruneNamespace", "pkg/kernel/filter.go:GetRunning"]}
{"id": "C31", "title": "Kernel event bytes decode to the event the kernel wrote", "statement": "For every kernel event the 736 bytes laid out by the C struct decode to a RawEvent with the same value in every field, trailing bytes are ignored, and shorter buffers are rejected.", "quantifier": "all field values, all buffer lengths", "why_tests_cant": "All byte strings.", "anchors": ["pkg/event/raw.go:RawEvent,IngestBytes", "internal/bpf/probe.c:struct swoll_event"]}
{"id": "C32", "title": "Task command names", "statement": "Commstr returns the bytes of the 16-byte comm field up to the first NUL, and all 16 when there is none.", "quantifier": "all 16-byte arrays", "why_tests_cant": "2^128 inputs.", "anchors": ["pkg/event/raw.go:Commstr"]}
{"id": "C33", "title": "Ingest never crashes on syscalls the decoder knows, and always crashes on the others", "statement": "TraceEvent.Ingest of a full-size event returns a decoded event whenever its syscall number is in the decoder table; for every other syscall number it panics instead of reporting an error, so one event of such a syscall kills the process.", "quantifier": "all 2^32 syscall numbers, all payloads", "why_tests_cant": "All payloads.", "anchors": ["pkg/event/trace.go:Ingest", "pkg/event/call/syscall.go:DecodeSyscall"]}
{"id": "C34", "title": "Argument decoders stay inside the argument buffer", "statement": "Every argument decoder reads only inside the five 128-byte slots of the event, for all argument bytes, except: mprotect reads max(128, len) bytes where len is chosen by the traced process; read, write, readlink and readlinkat build a slice of negative length when the count is negative.", "quantifier": "all argument bytes, all decoders", "why_tests_cant": "All payloads for ~60 decoders.", "anchors": ["pkg/event/call/*.go:DecodeArguments", "pkg/types/c.go"]}
{"id": "C35", "title": "Decoded arguments are what the task passed", "statement": "Composed with the kernel-side argument capture, the decoded integer arguments equal the task's arguments truncated to the field's declared width, path arguments equal the captured bytes up to the first NUL, and buffers equal the first min(count,128) captured bytes.", "quantifier": "all argument values", "why_tests_cant": "All payloads.", "anchors": ["pkg/event/call/*.go", "internal/bpf/probe.c:swoll__fill_args_*", "pkg/types/c.go"]}
{"id": "C36", "title": "C strings", "statement": "MakeCString(p,n) returns the longest NUL-free prefix of the n bytes at p; the result never contains a NUL, never exceeds n, and is stable under changes after the first NUL.", "quantifier": "all byte strings, all n", "why_tests_cant": "All byte strings.", "anchors": ["pkg/types/c.go:MakeCString"]}
{"id": "C37", "title": "Socket addresses", "statement": "Parsing an AF_INET address yields the port in host order and the address bytes as sent; an AF_UNIX address yields the path up to NUL; an AF_INET6 address yields the right address but a byte-swapped port (correct only when the two port bytes are equal). The fourteen bytes of an unspecified address are shown as signed numbers.", "quantifier": "all sockaddr bytes", "why_tests_cant": "All byte strings.", "anchors": ["pkg/types/sockaddr.go:parseSockAddr,ntohs"]}
{"id": "C38", "title": "Flag sets survive JSON", "statement": "Encoding a flag set to JSON names and decoding it into a zero value gives back the same bits, for every value made of known flags (accept, message, umount, timer, inotify, open flags) whatever the order of the names; the exceptions are exactly O_DSYNC (comes back as O_SYNC) and the mount flag MS_NOUSER (comes back sign-extended).", "quantifier": "all integers, all map iteration orders", "why_tests_cant": "2^64 values times name orders.", "anchors": ["pkg/types/fileflags.go", "pkg/types/msgflags.go", "pkg/types/umountflags.go", "pkg/types/clocktypes.go", "pkg/event/call/*.go: MarshalJSON/UnmarshalJSON"]}
{"id": "C39", "title": "Decoding flags into a non-zero value accumulates", "statement": "Except for open flags, UnmarshalJSON of a flag set ORs into the receiver; decoding twice into the same variable yields the union, not the last value.", "quantifier": "all values", "why_tests_cant": "All pairs of values.", "anchors": ["pkg/types/msgflags.go", "pkg/types/umountflags.go", "pkg/types/clocktypes.go"]}
{"id": "C40", "title": "errno names", "statement": "Errno JSON encoding round-trips for exactly the known errnos and -1; every other value becomes \"UNK\" = -1; the name table is injective, so the reverse table does not depend on map iteration order.", "quantifier": "all integers, all map iteration orders", "why_tests_cant": "All integers.", "anchors": ["pkg/types/errno.go"]}
{"id": "C41", "title": "Syscall table", "statement": "Looking up by name and by number are inverse on the table, the optional sys_ prefix does not matter, and the table built at start-up does not depend on map iteration order.", "quantifier": "all names and numbers, all iteration orders", "why_tests_cant": "All strings; all permutations.", "anchors": ["pkg/syscalls/syscalls.go:New,init,Lookup", "pkg/syscalls/consts.go"]}
{"id": "C42", "title": "Unknown syscalls", "statement": "Exactly 28 of the 333 numbered syscalls, and every number above 332, are missing from the lookup table; a job naming an unknown syscall panics at the first matching container start; a Prometheus scrape panics exactly if a metric of such a syscall exists in a resolvable namespace; the flow chart panics exactly if, in addition, the namespace is selected and the order asked for has at least two fields one of which is the syscall's name, class or group.", "quantifier": "all syscall names and numbers, all metric tables", "why_tests_cant": "All strings and numbers.", "anchors": ["pkg/topology/job.go:Run", "cmd/prometheus.go:Collect", "cmd/server.go:sankey"]}
{"id": "C43", "title": "Container cache", "statement": "After any sequence of observer events, LookupContainer(ns) returns a copy of the container of the last valid start for ns if no valid stop for ns followed, and ErrContainerNotFound otherwise; invalid events (nil, no container, ns<=0, unknown type) change nothing and are not reported to the callback; valid ones are reported exactly once, in order.", "quantifier": "every event sequence", "why_tests_cant": "Unbounded histories.", "anchors": ["pkg/topology/topology.go:processEvent,LookupContainer,Run"]}
{"id": "C44", "title": "Containers sharing a pid namespace", "statement": "Since the cache is keyed by pid namespace, stopping one of several containers that share it makes the others unresolvable.", "quantifier": "every history with two containers in one pid namespace", "why_tests_cant": "History property.", "anchors": ["pkg/topology/topology.go:processEvent"]}
{"id": "C45", "title": "Observer: stops match what was running", "statement": "The Kubernetes observer emits a stop for a pod only on its deletion, the stops are for the containers cached at the first Running-to-Running update since its creation, else those the CRI still lists; each cached set is used at most once, and pods are never mixed up as long as no two live pods have the same name+\".\"+namespace key.", "quantifier": "every sequence of informer callbacks, every CRI answer", "why_tests_cant": "Unbounded callback sequences.", "anchors": ["pkg/topology/kubernetes.go:Run,criContainers,containersForPod"]}
{"id": "C46", "title": "Alert queue callbacks", "statement": "For every source, the notices over any history of alerts are episodes New, then adds and deletes of syscalls, then Delete; a syscall is announced added exactly once while it is firing, and Delete comes exactly when the last firing syscall of the source resolves; the queue holds exactly the sources with firing syscalls. This needs that a pushed alert is not changed afterwards: the queue keeps the alert itself, and a reused alert is withdrawn without notice or never.", "quantifier": "every alert history over any sources and syscalls", "why_tests_cant": "Unbounded histories.", "anchors": ["internal/pkg/alert/queue.go:Push", "internal/pkg/alert/prometheus.go:ParseAlerts"]}
{"id": "C47", "title": "Trace controller state machine", "statement": "Under any interleaving of reconciles, edits, API failures, lost answers, stale reads and clock values the stored state of a trace stays or moves one step along Unknown\u2192Pending\u2192Running\u2192Complete; a Running trace has a job id and a start time; a trace that is not being deleted becomes Complete only with a Duration, and not before its stored start time plus Duration. Start times are stored in whole seconds, so up to a second less than Duration may have passed.", "quantifier": "every reconcile history, every failure pattern, every clock", "why_tests_cant": "Schedules, crash points, clocks.", "anchors": ["internal/pkg/controller/trace.go:Reconcile"]}
{"id": "C48", "title": "Controller crash points", "statement": "Without failures, stale reads or overlap a trace causes exactly one job. Every failed status update after the job was created leaves the trace Pending and one more job nobody records. A trace being deleted whose job is already gone is never released. Deleting a Pending trace releases it and then creates a job nobody records.", "quantifier": "every history with failures", "why_tests_cant": "Crash-point enumeration.", "anchors": ["internal/pkg/controller/trace.go:Reconcile"]}
{"id": "C49", "title": "Running-job table", "statement": "Every request is answered correctly for the table as it stood at one of its own critical sections: a create is refused only if the id was running, a get finds exactly the running ids. A successful delete moves the job from running to completed, so in every history and schedule each id is deleted successfully at most once: an id can be re-created after deletion but its second deletion always answers 500 while the job is in fact gone from the hub.", "quantifier": "every history of requests, sequential or interleaved", "why_tests_cant": "Unbounded request histories.", "anchors": ["cmd/server.go:liveJobs.add,get,remove,createJobHandler,deleteJob,deleteJobHandler"]}
{"id": "C50", "title": "Concurrent creates of one id", "statement": "If creates of an id do not overlap, at most one succeeds between two removals of that id. Because add checks and inserts in two critical sections, there is a schedule in which two concurrent creates of the same id both succeed and one job is lost from the table; and a deletion that was asked for an old job can remove a job of the same id created after it was asked. A get attaches only to a job that was created with that id.", "quantifier": "every schedule of two or more concurrent requests", "why_tests_cant": "Schedules.", "anchors": ["cmd/server.go:liveJobs.add,get,remove,createJobHandler,deleteJob"]}
{"id": "C51", "title": "Chart aggregation", "statement": "The links of the flow chart are exactly the steps between adjacent fields of the selected metrics, nodes are exactly their endpoints, neither with duplicates. The value of a link is the sum of the counts of the metrics with those two field values, whatever the order of the metrics, as long as that sum is at most 2^24; above that the float32 sums are off by at most one part in 2^24 per addend, depend on the order of the metrics, and stop growing by counts of one. Fields are told apart by value only, so a metric whose pod is called like its namespace counts twice. The order asked for in the query is the order used; unknown tokens are ignored.", "quantifier": "every metric list", "why_tests_cant": "All lists.", "anchors": ["cmd/server.go:sankey,parseOrder"]}
{"id": "C52", "title": "Word-cloud totals", "statement": "Word-cloud totals are sums over all snapshots the page was ever rendered with: they equal the counters only for the first render, and every later render adds the cumulative counters again (n renders of counters that stand still show n times their value, modulo 2^64). The pages of the single clouds show the totals of the last render of the whole page and never update.", "quantifier": "every sequence of renders", "why_tests_cant": "Histories.", "anchors": ["cmd/server.go:wordClouds.updateMetrics,updateErrno,updateNamespace,updateClass"]}
{"id": "C53", "title": "Kernel symbol table parsing", "statement": "From a symbol file the offset helper keeps exactly the text symbols (t/T): each function name maps to the address of the last line about it. It panics exactly when some line has fewer than two fields, or is a t/T line without a name. A line of 64 KiB or more silently ends the table: later functions are missing and no error is reported.", "quantifier": "every symbol file", "why_tests_cant": "All texts.", "anchors": ["pkg/kernel/offset_helper.go:parseKernelSyms"]}
{"id": "C54", "title": "Offset detection", "statement": "Each of the fixed probe functions votes: for nsproxy by the first load after the first line that mentions the lock, for the pid namespace by every lea line. Detection sets offsets that no other has more votes than; a clear winner is set whatever order the maps are walked in and is what the probe reads (modulo 2^32), while among tied offsets the walk order decides. If either vote is empty it reports success without setting anything. A missing function is an error. It writes both offsets, or nothing, or only the first with an error. Without the lock's symbol any first line counts as the lock, and a negative displacement votes like a positive one.", "quantifier": "every symbol file, every disassembly, every map iteration order, every refusal of the kernel", "why_tests_cant": "All maps and orders.", "anchors": ["pkg/kernel/offset_helper.go:maxCandidates,nsproxyLikelyOffset,pidnsCommonLikelyOffset,DetectAndSetOffsets", "pkg/kernel/offsets.go:Set", "internal/bpf/probe.c:swoll__get_nsproxy_offset,swoll__get_pid_ns_common_offset"]}
{"id": "C55", "title": "Rules the kernel never consults", "statement": "A filter rule in syscall mode that names no syscall (for example 'every syscall of this namespace' or 'this process') never lets any syscall through, although adding it succeeds; a metrics rule that names the syscall with number 0 (read) never matches a read.", "quantifier": "every rule built from the public rule options without a syscall, every map state, every task and syscall", "why_tests_cant": "A test shows one syscall being dropped; deadness is about every task, syscall and map content.", "anchors": ["pkg/kernel/filter.go:NewFilterRule,FilterRuleSetPidNamespace,FilterRuleSetSampleRate,AddRule", "internal/bpf/probe.c:swoll__run_nfilter"]}
{"id": "C56", "title": "Hub consistency when callbacks interleave", "statement": "While several jobs' container-start callbacks run at once, step by step in any interleaving with each other, with job deletion and with events, the hub's two indexes always hold exactly the registrations made and not deleted, and every registered (pid namespace, syscall) has its kernel rule or a callback in flight that will still install it. A kernel rule without any registration can only remain when a job is deleted while one of its own callbacks is running, and then it does remain.", "quantifier": "every schedule of callback instructions and hub operations, every set of jobs and containers", "why_tests_cant": "A test drives one schedule; the number of interleavings is unbounded.", "anchors": ["pkg/topology/job.go:Run", "pkg/topology/hub.go:PushJob,DeleteTrace,findLowestSampleJob", "pkg/kernel/filter.go:AddSyscall,AddSampledSyscall,RemoveSyscall"]}
{"id": "C57", "title": "Which number is the process id", "statement": "In a decoded event UID and GID are the task's user and group id, but Pid is the kernel thread id and Tid the process (thread group) id: the two names are exchanged, so Pid equals the process id only for single-threaded tasks' main threads.", "quantifier": "every pid/tgid pair and every uid/gid pair", "why_tests_cant": "All number pairs; a test with a single-threaded program sees pid = tid.", "anchors": ["internal/bpf/probe.c:swoll__event_fill_init", "pkg/event/raw.go:RawEvent", "pkg/event/trace.go:Ingest"]}
{"id": "C58", "title": "Error and return value of a call", "statement": "For every decoded syscall other than execve and getcwd, a call that fails with errno n shows Error n, and one that succeeds with an int result shows that result and no error. Results with bit 31 set (addresses) show a spurious error, getcwd never shows an error, and syscalls without an argument filler show neither error nor result; execve is reported without a result. A call without a filler shows nothing of an earlier call's arguments. A failed call's Return is 2^32 minus errno.", "quantifier": "every syscall number, argument, memory and result", "why_tests_cant": "All 64-bit results of all calls.", "anchors": ["internal/bpf/probe.c:SWOLL_COMMON_LTZERO_ERROR,SWOLL_COMMON_NULL_ERROR,swoll__exit", "pkg/event/trace.go:Ingest"]}
{"id": "C59", "title": "Nothing of an earlier call is shown", "statement": "No decoded member depends on the bytes that earlier calls on the same CPU, possibly of other containers, left in the argument slots, except faccessat.flags, the tail of the stat buffers of stat, fstat and statfs, and mprotect.addr_data. In the raw event, every slot a call does not fill still holds the earlier bytes.", "quantifier": "every call, every content of the scratch slots", "why_tests_cant": "Depends on every possible earlier history of the CPU.", "anchors": ["internal/bpf/probe.c:swoll__event_fill_init,swoll__fill_args_*", "pkg/event/call/*.go"]}
{"id": "C60", "title": "Named numbers and socket options in JSON", "statement": "Address families, protocols, option levels and resources keep their value through JSON for every 64-bit integer, named or not, whatever order Go iterates its maps in. Socket options keep level and number exactly when they are SOL_SOCKET or TCP options with a name or IP options; named IPv6 options are an error on the client and unnamed options of other levels come back with level 0. Socket types keep their value exactly when they are a known type with nothing but SOCK_NONBLOCK and SOCK_CLOEXEC added.", "quantifier": "every integer, every map iteration order", "why_tests_cant": "All values and all map orders; Go randomises the order.", "anchors": ["pkg/event/call/socket.go", "pkg/event/call/sockopt.go", "pkg/event/call/prlimit64.go"]}
{"id": "C61", "title": "Text in JSON", "statement": "Paths and command names, which are arbitrary bytes, reach a client unchanged exactly when they are well-formed UTF-8; otherwise the client has well-formed text that is not shorter, in which different names may have become equal.", "quantifier": "every byte string", "why_tests_cant": "All byte strings.", "anchors": ["pkg/event/trace.go:TraceEvent,UnmarshalJSON", "pkg/types/c.go:MakeCString", "pkg/event/call/open.go:Open"]}
{"id": "C62", "title": "Socket addresses on the client", "statement": "A client that prints a socket address received as JSON prints what the server would have printed if the address is an IPv4 address or a unix path of at most 13 bytes. For IPv6 and longer unix addresses the printed text depends on memory behind the 16 bytes the client allocated.", "quantifier": "every address, every content of the memory behind it", "why_tests_cant": "Depends on the heap's content; a test sees one.", "anchors": ["pkg/types/sockaddr.go:MarshalJSON,String,parseSockAddr"]}
{"id": "C63", "title": "What a client sees of an event", "statement": "A client reads back exactly what the server decoded, for every map order and heap, exactly when the command name and every string member are well-formed UTF-8, the errno has a name, all flag members are unions of named flags other than O_DSYNC, socket types and options are plain ones and socket addresses are short. Everything else comes back changed. Names of socket options are looked up at the level the call was given.", "quantifier": "every event of every decoded syscall, every map order and heap", "why_tests_cant": "All events; depends on map order and on memory content.", "anchors": ["pkg/event/trace.go:TraceEvent,UnmarshalJSON", "pkg/event/call/*.go"]}
{"id": "C64", "title": "Deleted pods leave the cache", "statement": "When a pod is deleted, the containers remembered for it can no longer be resolved. A container of the pod that was announced but had already gone, or had been restarted in a new namespace, when the others were first remembered stays resolvable although its pod is gone.", "quantifier": "every sequence of informer callbacks, every CRI answer", "why_tests_cant": "Unbounded callback sequences with changing CRI answers.", "anchors": ["pkg/topology/kubernetes.go:Run", "pkg/topology/topology.go:processEvent,LookupContainer"]}
{"id": "C65", "title": "Late and restarted containers", "statement": "A container whose pid namespace was not listed by the runtime when its pod was added or went from Pending to Running is never resolved, however long it runs: updates of a running pod announce nothing.", "quantifier": "every sequence of informer callbacks, every CRI answer", "why_tests_cant": "Unbounded callback sequences.", "anchors": ["pkg/topology/kubernetes.go:Run,containersForPod", "pkg/topology/topology.go:LookupContainer"]}
{"id": "C66", "title": "Jobs of completed traces", "statement": "The controller deletes a job only when a trace that records it is being deleted; a trace that completes because its Duration is over leaves its job running.", "quantifier": "every history of reconciles, edits and failures", "why_tests_cant": "Unbounded histories with failures and stale reads.", "anchors": ["internal/pkg/controller/trace.go:Reconcile"]}
{"id": "C67", "title": "Deleting jobs through the API", "statement": "A delete of a job answers 200 only if a container had been started for a job of that id. A running job that has matched no container yet cannot be deleted: the delete answers 500 and the job stays. A deleted job's observer is not stopped, so a later start of a matching container puts the job's rules back in the kernel filter although the API answers 404 for its id.", "quantifier": "every interleaving of requests and container events", "why_tests_cant": "Unbounded histories of requests and container events.", "anchors": ["cmd/server.go:deleteJob,deleteJobHandler,createJobHandler", "pkg/topology/hub.go:DeleteTrace,RunJob", "pkg/topology/job.go:Run"]}
{"id": "C68", "title": "Prometheus scrape", "statement": "A scrape shows exactly one count and one time for each metric whose container is known, labelled with its syscall, container and error, with exact values up to 2^53. Labels tell metrics apart except for error numbers without a name, which all read UNK: a scrape is refused as a whole exactly if two such errors were seen for one container and syscall, and always succeeds if all errors have names and all syscalls are known, even if containers come and go during it.", "quantifier": "every metric table, every answer of the container table during the scrape", "why_tests_cant": "All tables and all interleavings with container events.", "anchors": ["cmd/prometheus.go:Collect", "pkg/types/errno.go:errnoToString"]}
{"id": "C69", "title": "Offsets from the command line", "statement": "The two offset flags are used exactly with --no-detect-offsets; otherwise they are ignored without a word. With it, a given flag (hexadecimal, optional 0x, optional sign) sets its offset modulo 2^32, so a negative one wraps, and one that is not given leaves the compiled-in offset. A bad first flag sets nothing; a bad second flag fails but leaves the first offset set. Set accepts two types only, by name or by number modulo 256, and a failed Set changes nothing.", "quantifier": "every flag text, every configuration map, every Set argument", "why_tests_cant": "All texts and numbers.", "anchors": ["cmd/offsetter.go:SetOffsetsFromArgs", "pkg/kernel/offsets.go:NewOffset,Set"]}
{"id": "C70", "title": "What the client asks for is what the server does", "statement": "Job ids and namespaces of any bytes arrive at the server as they were. Creating asks for the id given (none: the server picks one) in the namespace given, never anything else, and reports success only if a job was created. Deleting and watching concern exactly the job named, or none; no request ever deletes another job or creates one. For names that can be one component of a path (not empty, no slash, not '.' or '..') they always reach the job. False of the code: a delete of 'x/' or '.' reports success although nothing was deleted; a job whose id has a slash can be created but never deleted or watched; reading by namespace, pod or container never connects.", "quantifier": "every id, namespace, pod and container name (all byte strings), every table of answers of the server", "why_tests_cant": "All byte strings through two escapings, path cleaning, routing and redirects.", "anchors": ["pkg/client/endpoint.go:CreateTrace,DeleteTraceJob,ReadTraceJob,ReadTrace,URL", "cmd/server.go:runServer routes"]}
{"id": "C71", "title": "Endpoint flags", "statement": "The endpoint list is accepted exactly if every entry is host:port with a decimal 64-bit port; the endpoints are these in order, and requests go to scheme://entry/path. False of the code: an entry without a colon crashes the command instead of being reported; a host with a colon (an IPv6 address) is always rejected.", "quantifier": "every list of flag values", "why_tests_cant": "All texts; the crash and the rejection are exact characterisations.", "anchors": ["cmd/client.go:parseStaticEndpointsArg", "pkg/client/endpoint.go:NewEndpoint,URL"]}
{"id": "C72", "title": "Job lists of the client", "statement": "For job ids that are well-formed UTF-8, the lists of running, completed and all jobs are exactly the server's, in some order, each job once. For any ids they contain only real jobs and never more than the server has. Ids that become equal as JSON cost all but one of their jobs.", "quantifier": "every pair of job tables, every map iteration order", "why_tests_cant": "All tables, all ids, all iteration orders.", "anchors": ["pkg/client/endpoint.go:RunningJobs,CompletedJobs,AllJobs,getJobs", "cmd/server.go:getJobsHandler"]}
{"id": "C73", "title": "The create command", "statement": "Each part of the specification sent is the flag's if given, else the file's. Jobs are created on the endpoints in order. With --oneshot each job is read and deleted at most once, on its own endpoint or a later one; with one endpoint, and on the last of several, the job is gone when the command is done. False of the code: with several endpoints all goroutines may use the last endpoint, so that every other job is left behind and never read; a failure at one endpoint leaves the jobs of those before it.", "quantifier": "every combination of flags and file, every number of endpoints, every interleaving of the loop and its goroutines", "why_tests_cant": "All schedules of the loop and its goroutines.", "anchors": ["cmd/client.go:cmdClientCreate"]}
{"id": "C74", "title": "The object that is loaded", "statement": "The program goes on with the contents of the file named by --bpf, or else by SWOLL_BPFOBJECT, or else with the object that is built in; an empty file stands for the latter. False of the code: a file that does not exist falls back to the built-in object; it is loaded, but the error is returned with it and ends the program.", "quantifier": "every flag, environment and file system", "why_tests_cant": "All combinations of names and file contents.", "anchors": ["cmd/loader.go:loadBPFargs", "cmd/server.go:cmdServer", "cmd/trace.go:cmdTrace"]}
{"id": "C75", "title": "The probe's life", "statement": "After every history of InitProbe, InitTracepoints, Run and Close, Run does nothing unless InitProbe succeeded with no Close since. InitProbe succeeds exactly if the object loads and all options succeed, calling them in order up to the first failure. If attaching never failed, a Run that gets to its loop has every tracepoint attached exactly once, and Close leaves none. False of the code: a successful InitProbe applied the options it was given (on a ready probe it ignores them); options are applied once, and tracepoints attached once, when an earlier call failed half way. Nothing but the initialisation loads the object or applies options.", "quantifier": "every history of calls, every outcome of each call into gobpf, any number of options and tracepoints", "why_tests_cant": "All histories and all failure points.", "anchors": ["pkg/kernel/probe.go:InitProbe,InitTracepoints,Close,Run"]}
{"id": "C76", "title": "What the reader passes on", "statement": "While its callback succeeds the probe calls it for every message and every loss, in order, until the context ends, and then stops polling. Under every schedule the consumer of the reader has received what was polled, in order, without gaps or repeats, but for at most one message. While it receives, a cancellation can stop the polling. False of the code: polling stops when Run returns (not after a failed callback); cancellation stops polling (a consumer that leaves with a message on its way blocks it for ever); a probe that cannot start is reported by the reader.", "quantifier": "every sequence of messages and losses, every schedule of poller, consumer and cancellation", "why_tests_cant": "All interleavings.", "anchors": ["pkg/kernel/probe.go:Run", "pkg/event/reader/kernel.go:Run,handler,Read"]}
{"id": "C77", "title": "What top shows", "statement": "After any ticks the count under some names (pod, namespace, container, syscall, error) is the one read last under them. If syscalls and errors have names and no two pid namespaces have containers of the same names, every metric of the last tick is shown with its count. What the two graphs got so far adds up to the counts shown. The rows are the counters, each once; with --aggregate-hosts they can be told apart if namespaces and containers have no dots. False of the code: metrics with the same names are summed (the last one wins, as after a restart); a tick's number of calls is never negative; containers that are gone leave the table.", "quantifier": "every history of ticks, every set of metrics and answers of the container table, every sort order", "why_tests_cant": "All histories of metrics and containers.", "anchors": ["cmd/top.go:cmdTop,lookupOrCreate,mkaggMetricKey,update,makeSortable"]}
{"id": "C78", "title": "Top keeps running", "statement": "Under every schedule the main loop changes the counters only while nobody reads them. It can never get the lock again exactly if it asked for it while the table held its first read lock and did not have its second. False of the code: top keeps running; whenever the lock is free two steps lead to that state.", "quantifier": "every schedule of the main loop, the table's goroutine and the graph's", "why_tests_cant": "All interleavings; the window is a few instructions wide.", "anchors": ["cmd/top.go:mu,update,makeSortable,lookupOrCreate"]}
{"id": "C79", "title": "The self-test", "statement": "It passes exactly if the process has CAP_SYS_ADMIN, the tracing file system is not known to be missing (perhaps after a mount that --fix asked for) and either there is no configuration file of the running kernel or all three options are found in it. An option is found exactly if a line of its own sets it to y or m, in files of lines below 64 KiB. It mounts at most once, and only if asked to. False of the code: options after a longer line are found; passing means that the tracing file system can be used (errors other than its absence pass).", "quantifier": "every state of the system, every configuration file", "why_tests_cant": "All configuration files and all combinations of failures.", "anchors": ["cmd/selftest.go:runSelfTest,checkCapabilities,checkMounts,checkFeatures,parseBootConfig,getBootConfigFile"]}
{"id": "C80", "title": "The hub's locks keep sections apart and never deadlock quiet programs", "statement": "Under every schedule of any goroutines that handle probe messages, start and stop jobs, subscribe and unsubscribe, one goroutine at a time is in a section of the hub, and the subscriptions change only while nobody publishes. If the callbacks ask the hub for nothing then publishes and subscription changes happen one at a time, each goroutine does what its calls say in order and once, no schedule ends in a deadlock, and every schedule that gives each goroutine a turn per round completes every call.", "quantifier": "every number of goroutines, every list of calls each makes, every schedule", "why_tests_cant": "All interleavings of all programs; deadlock freedom is a statement about every reachable state.", "anchors": ["pkg/topology/hub.go:Hub.Run,PushJob,DeleteTrace,WriteEvent,AttachPath,AttachTrace", "internal/pkg/pubsub/pubsub.go:Subscribe,Publish"]}
{"id": "C81", "title": "What a callback may ask of the hub", "statement": "While a callback of an event has not returned, no call that handles an event, starts or stops a job, subscribes or unsubscribes returns. Callbacks may publish, to any depth, as long as nobody subscribes. False of the code: a callback may subscribe, unsubscribe, or start or stop a job: it never returns under any schedule, and from then on no event is handled, no job starts or stops and no subscription is made or removed. False of the code: a callback may publish while others subscribe: some schedule jams both for ever, and nobody gets in any more.", "quantifier": "every set of goroutines, every position of the call, every schedule and continuation", "why_tests_cant": "'Never' ranges over all continuations; the jam needs one interleaving in many.", "anchors": ["pkg/topology/hub.go:Hub.Run,WriteEvent,AttachPath,AttachTrace", "internal/pkg/pubsub/pubsub.go:Subscribe,Publish,WithNoMutex"]}
{"id": "C82", "title": "Watchers get their stream", "statement": "A client of the watch API gets a prefix of its stream, the events published below the job or container it asked for from joining to being unsubscribed, in order and each once. While its connection is open and no write has failed, and the hub is between events, it has got all of it. After the connection is closed it gets nothing.", "quantifier": "every history of watchers that come, leave, answer pings or block, every event and every timing", "why_tests_cant": "All interleavings of publishing, timers and clients.", "anchors": ["cmd/server.go:jobReader,jobWriter,traceWriter,traceWatchHandler,getJobHandler", "pkg/topology/hub.go:AttachPath,AttachTrace"]}
{"id": "C83", "title": "The watch timers", "statement": "A client that sends no pong for 57 seconds has its connection closed and its ping loop ended; once a connection is closed the loop ends within 27 seconds; a job watcher is then unsubscribed as soon as the hub is not publishing, which never fails. A client that answers each ping in less than three seconds, whose writes do not fail and that does not leave stays connected for ever.", "quantifier": "every history, every instant in it", "why_tests_cant": "Ranges over unbounded time and every interleaving of two timers with traffic.", "anchors": ["cmd/server.go:jobReader,jobWriter,traceWriter,traceWatchHandler,getJobHandler", "pkg/topology/hub.go:AttachPath,AttachTrace"]}
{"id": "C84", "title": "Callbacks of watchers that left", "statement": "Between events, the hub has run the callback of each watcher once for each event of its stream, whether or not the client is still there. False of the code: leaving ends a watcher of containers. It is never unsubscribed, so its callback runs for every matching event as long as the server lives.", "quantifier": "every history; every namespace, pod and container", "why_tests_cant": "'Never unsubscribed' ranges over all continuations.", "anchors": ["cmd/server.go:jobReader,jobWriter,traceWriter,traceWatchHandler,getJobHandler", "pkg/topology/hub.go:AttachPath,AttachTrace"]}
{"id": "C85", "title": "Blocked watchers", "statement": "A write to a watcher holds up the hub for at most ten seconds. If no write blocks then no client can crash the server. False of the code: no client can crash it. Whenever a write to a client still blocks when its ping is due, the two goroutines write at once and the library panics.", "quantifier": "every history, every blocked write", "why_tests_cant": "The crash needs a full network buffer at the instant of a ping.", "anchors": ["cmd/server.go:jobReader,jobWriter,traceWriter,traceWatchHandler,getJobHandler", "pkg/topology/hub.go:AttachPath,AttachTrace"]}
{"id": "C86", "title": "A Trace resource reaches the server", "statement": "With one endpoint and at most one host name, the container the controller starts for a Trace resource asks the server for the job the resource stands for: its namespace, an id from its name, its system calls (sys_execve if none are given), its labels, field selectors and hosts. Lists without quotes, commas and line ends, and maps of valid labels, go through the command line unchanged. Only --use-tls and --oneshot take no argument; `--flag value` is `--flag=value` for every other flag. False of the code: a label value stays a value. One with a comma and an equals sign adds a requirement of its own.", "quantifier": "every trace with texts that can be passed on, every endpoint", "why_tests_cant": "The texts go through five encodings (join, quotes, CSV, flags, selectors) whose composition must be the identity on all of them.", "anchors": ["internal/pkg/controller/trace.go:createJobResource", "cmd/controller.go:cmdController", "cmd/client.go:cmdClientCreate,parseStaticEndpointsArg", "api/v1alpha1/trace_types.go:TraceSpec"]}
{"id": "C87", "title": "Traces on several nodes", "statement": "False of the code: a trace runs on all endpoints. With two or more endpoints, given or found from the nodes, or one node whose address is IPv6, the container ends with an error before it makes a request. One node with a name or an IPv4 address works. The search for endpoints panics exactly if some node has no address, and else takes the first of each.", "quantifier": "every list of endpoints and nodes, every trace", "why_tests_cant": "That no trace ever starts ranges over all traces and clusters.", "anchors": ["internal/pkg/controller/trace.go:createJobResource", "cmd/controller.go:cmdController", "cmd/client.go:cmdClientCreate,parseStaticEndpointsArg", "api/v1alpha1/trace_types.go:TraceSpec"]}
{"id": "C88", "title": "Traces of several hosts", "statement": "A trace with one host name selects exactly the containers of that name, one with none selects all. False of the code: a trace with several selects those. The client sends them as a single name, which selects no container.", "quantifier": "every trace, every container name without a comma", "why_tests_cant": "Ranges over all host lists and names.", "anchors": ["internal/pkg/controller/trace.go:createJobResource", "cmd/controller.go:cmdController", "cmd/client.go:cmdClientCreate,parseStaticEndpointsArg", "api/v1alpha1/trace_types.go:TraceSpec"]}
{"id": "C89", "title": "The job of a trace", "statement": "The job made for a validly named trace is accepted by the API server exactly if the name has no dots and at most 60 characters; so it is false that each valid trace runs. False of the code: the pods of agents are marked swoll=false and so left out of traces (the mark is overwritten), and match expressions and the sample rate of a trace reach the job.", "quantifier": "every trace with a valid name", "why_tests_cant": "Boundary of two length and alphabet rules over all names; losing a field is a statement about all its values.", "anchors": ["internal/pkg/controller/trace.go:createJobResource", "cmd/controller.go:cmdController", "cmd/client.go:cmdClientCreate,parseStaticEndpointsArg", "api/v1alpha1/trace_types.go:TraceSpec"]}
{"id": "C90", "title": "The printed line names and shows the arguments", "statement": "In the line `swoll trace` prints for a call, each label is a name of a parameter of the system call (man 2) and the value behind it is that parameter as passed, except where C35 says otherwise; labels are in the order of the parameters; every parameter but a listed few (addrlen, envp, openat's mode, ...) has a label; a line is printed for every decodable call whose count is not negative. Addresses are \"0x\" and the hexadecimal digits of the number, at least eight. False of the code: clone (fn is the stack, child_stack is memory at parent_tid, wrong order), execve (argv[] leaves out argv[0]), faccessat (flags are left over from an earlier call), umount2 (printed as umount).", "quantifier": "every decoded system call, every register and memory content, every earlier content of the buffer", "why_tests_cant": "59 calls times all argument values, and the label, the decoder and the kernel program must agree on each.", "anchors": ["cmd/trace.go:showMsg", "pkg/event/call/function.go:Argument", "pkg/event/call/clone.go:Arguments", "pkg/event/call/execve.go:Arguments", "pkg/event/call/open.go:Arguments", "pkg/types/sockaddr.go:String", "pkg/types/container.go:FQDN"]}
{"id": "C91", "title": "One call, one line", "statement": "If no container name, process name, string argument or unix socket path contains a line feed, the output for a call is one line. False of the code without that condition: for every text of at most 125 bytes without NUL and line feed, a task of any container that opens a suitable path makes the tracer print that text as a line of its own, so it can forge the line of any short call of another container. Columns are padded by characters, not bytes. An output format other than cli and json prints nothing and is no error. On a terminal a coloured word is shown in its colour, the arguments white on black, and what follows in the terminal's own colours.", "quantifier": "every event, every text", "why_tests_cant": "The absence of line feeds is about all values of all formats; the forgery is about all texts.", "anchors": ["cmd/trace.go:showMsg", "pkg/types/c.go:MakeCString", "pkg/types/sockaddr.go:parseSockAddr"]}
{"id": "C92", "title": "The latency of a call", "statement": "The latency shown for a call is finish minus start exactly while the machine has been up for at most 2^53 ns (104 days); after that it is off by at most (start + finish) / 2^53 for calls up to 2^52 ns, never negative, and never smaller for a later finish. False of the code: it is always exact.", "quantifier": "all start and finish times", "why_tests_cant": "Needs rounding of all 64-bit times.", "anchors": ["pkg/event/trace.go:Latency,LatencyMS", "cmd/trace.go:showMsg"]}
{"id": "C93", "title": "The message sent for an event", "statement": "The server has a message for every event it can read, except, exactly, a read, write or readlink with a negative count and an mprotect beyond the memory it can read: these end the server. Strings in it are read back by any JSON reader as they were, with U+FFFD for bytes that are not UTF-8; byte strings exactly. The message is within the client's 4096 byte limit if the event's strings are ordinary text, no slice is over 1024 bytes and the container's JSON is at most 1896 bytes; for any strings if that is at most 286 bytes. False of the code: every event has a message (read(0, buf, -1) has none, the server ends); every message fits. No mprotect of 3073 bytes or more does, because as many bytes of memory as its length argument says are sent with it, and an execve with control characters in its arguments need not.", "quantifier": "every event the kernel program can produce, every container", "why_tests_cant": "The bound is over all 59 argument structs, all argument values and all containers.", "anchors": ["pkg/event/trace.go:TraceEvent", "pkg/types/container.go:Container", "pkg/event/call", "cmd/server.go:jobWriter", "pkg/client/endpoint.go:maxMessageSize"]}
{"id": "C94", "title": "Watching one endpoint", "statement": "What a watch shows is a prefix of the events that arrived, in order, none twice; while the stream lasts none is lost. It lasts as long as messages are within the limit, the other side does not end it and the client never goes a minute without reading the answer to a ping; pings leave every 54 seconds. Once it has ended nothing more is shown, and within 54 seconds a warning is. False of the code: incoming events keep the stream up; slow output only delays it; every event arrives (one mprotect ends the stream).", "quantifier": "every sequence of arriving frames, reads, pauses, ticks and failures", "why_tests_cant": "It is about all interleavings of network, reader, ticker and output.", "anchors": ["pkg/client/endpoint.go:createWebsock,writeWebsock,readWebsock,ReadTraceJob"]}
{"id": "C95", "title": "Watching several endpoints", "statement": "With several endpoints each endpoint's events are printed in the order and number in which they would be if it were the only one, and everything printed comes from one of them; the command runs until it gets a signal. False of the code: it ends when every stream has ended.", "quantifier": "any number of endpoints, every interleaving of their histories", "why_tests_cant": "Independence is about all interleavings.", "anchors": ["cmd/client.go:watchJob,cmdClientWatch"]}
{"id": "C96", "title": "A message is a JSON text of the event", "statement": "Whatever the event, its message is a JSON text (RFC 8259), and a reader gets from it an object with the event's syscall, ids, command, session, container, error, return value, namespaces, times and arguments under their own keys and nothing else. Each argument of the call is found under its name (upper and lower case alike, as Go's decoder looks keys up): numbers as they are, flag sets as the list of their names, enumerations as a name, strings with U+FFFD for bytes that are not UTF-8, buffers in base64 of exactly the bytes, structs member by member; getsockopt's one level deeper. Apart from the arguments there are only members that are never assigned (recvfrom's o_size, bind's Ret, open's ret, execve's fourth argument). So events with the same message agree in pid, tid, ids, session, return value, namespaces and times.", "quantifier": "every event the kernel program can produce, every container, every content of memory behind the event", "why_tests_cant": "It ranges over all 59 argument structs, all bytes in strings and all values; the text must be readable for every one of them.", "anchors": ["pkg/event/trace.go:TraceEvent", "pkg/event/call", "pkg/types/container.go:Container", "pkg/syscalls/syscalls.go:Syscall", "cmd/server.go:jobWriter"]}
{"id": "C97", "title": "Tracing without containers", "statement": "`swoll trace --no-containers -s ...` starts exactly when every name after -s is that of a system call, with or without \"sys_\" (execve when there are none). From then on, whatever the tasks of the machine do, an event is sent when a task leaves a call exactly when the call is one of those named and the task was seen entering it, with what it entered with and what it left with; of execve an event is sent at every entry. No metrics are kept. One line is printed per event, in order of arrival, with the task's name and number and the name of the call, and only for calls that were named. The program runs until it is stopped exactly when every named call has a decoder; false in general: with -s getpid it starts and ends at the first getpid on the machine. With -o json it also ends at a read, write or readlink of a negative count and at a large mprotect.", "quantifier": "every list of names, every history of entries and exits of any number of tasks (up to 65535 threads in calls), every content of user memory and of the scratch buffers", "why_tests_cant": "It ranges over all interleavings of the tasks of a machine and over all events; a test would need every call in the table and every buffer.", "anchors": ["cmd/trace.go:cmdTrace", "pkg/kernel/filter.go:NewFilterRuleN", "pkg/event/trace.go:Ingest", "internal/bpf/probe.c"]}
{"id": "C98", "title": "`swoll trace` from the system call to the printed line", "statement": "`swoll trace -s ...`, with the observers' reports and the tasks of the machine in any order. When a task leaves a call an event is sent exactly when the call was asked for, the task was seen entering it, and before it entered a container with its pid namespace had been reported to the trace; of execve an event is sent at every entry under the same conditions. An event that was sent is read at most once, and unless the perf buffer was full it is not lost. What is printed for it names the container the hub knows for that pid namespace, the task and the call; it is printed once for each time a container of that namespace was reported to the trace, times the number of times the call is named on the command line, and not at all if the hub knows no such container. Nothing is printed for calls that were not asked for, or that were made in pid namespaces not reported before. Every rule can be installed while there are few enough containers. The program runs until it is stopped exactly when each name is that of a call with a decoder. False: that the line names a container that was reported to the trace (containers of a pod that share a pid namespace), and that there is one line per call (a container reported twice).", "quantifier": "every list of names, every history of pod events, matches of the label selector, entries and exits of tasks, reads of the perf buffer and losses in it, every content of user memory and of the scratch buffers", "why_tests_cant": "It ranges over all interleavings of the machine's tasks, the observers' events and the reader, and joins the kernel's filter, the hub's maps, the decoder and the topic; a test needs a cluster and a kernel and sees one interleaving.", "anchors": ["cmd/trace.go:cmdTrace", "pkg/topology/hub.go:RunTrace", "pkg/topology/hub.go:Run", "pkg/kernel/filter.go:Filter", "internal/bpf/probe.c", "pkg/event/trace.go:Ingest"]}
{"id": "C99", "title": "Which pods a trace follows", "statement": "A container gets rules for a trace exactly when its pod is in the trace's namespace (any, if it has none), has every label of matchLabels, shows every value of the field selector, and the container's name is in the host selector, if there is one. It does not depend on how the hub's own observer was set up. A field pods cannot be selected by, or a label that is not valid, makes the trace follow no pod. `swoll trace` follows the pods with the labels and fields it accepts as arguments; `swoll top` shows the running pods of its namespace with the labels it was given. False: that matchExpressions count (they are never looked at, so a trace that has only these follows every pod); that the value of a label is only ever a value (one with a comma can add a condition on another label); that `swoll trace a=b c=d` works (it ends with an error).", "quantifier": "every trace (namespace, labels, expressions, fields, hosts), every setting of the hub's observer, every pod with its labels and fields, every container name, every list of arguments", "why_tests_cant": "It ranges over all sets of labels and fields and all pods, and the selectors travel as texts that the API server parses again; tests check a few texts and no API server.", "anchors": ["pkg/topology/job.go:Run", "pkg/topology/kubernetes.go:Copy,connectKube,WithKubernetesLabelSelector,WithKubernetesFieldSelector,WithKubernetesNamespace", "cmd/trace.go:cmdTrace", "cmd/top.go", "cmd/server.go"]}
{"id": "C100", "title": "Pods that opt out", "statement": "A pod labelled swoll=false is unknown to the hub of the server and of `swoll trace`, and what `swoll trace` prints always names a container of a pod that has not opted out and is in the namespace asked for. False: that nothing is done about such pods (a trace whose labels match them installs rules for them and the kernel reports their calls), and that their calls are never shown (if such a pod shares its pid namespace with another, the calls are printed as the other's).", "quantifier": "every set of pods with unique names, every history of observer reports, task steps and reads in which observers only report pods the API server tells them of, every trace", "why_tests_cant": "It is about all histories and all clusters, and joins the selection of pods with the kernel's filter, the hub and the printed line.", "anchors": ["cmd/server.go", "cmd/trace.go:cmdTrace", "pkg/topology/job.go:Run", "pkg/topology/hub.go:Run", "pkg/topology/kubernetes.go:Copy"]}
{"id": "C101", "title": "Flags in a printed line", "statement": "In a line `swoll trace` prints, the name of a documented flag of open, openat, mount, umount2, clone, setns, mprotect, access, inotify_add_watch, sendto, recvfrom and timerfd_create stands behind its parameter exactly if the task set the flag, once, whatever order the program goes through its tables in; nothing else stands there, except the name of the whole value (O_RDONLY, F_OK, PROT_NONE, MS_NONE for 0; IN_ALL_EVENTS) and, for messages without any named flag, the number. False: that every flag is printed (a listed set, such as O_PATH, MSG_MORE, CLONE_PIDFD, UMOUNT_NOFOLLOW and IN_MASK_CREATE, has no name, so different calls print alike), that O_SYNC means O_SYNC (O_DSYNC prints it too), that MS_NOUSER means MS_NOUSER.", "quantifier": "every one of these system calls, every register and memory content, every value of the flags, every order of a Go map", "why_tests_cant": "It is a statement about each bit of every value and every iteration order; tests print a few values, and Go picks the order.", "anchors": ["pkg/types/fileflags.go:Parse,String", "pkg/types/cloneflags.go", "pkg/types/xmode.go", "pkg/types/umountflags.go", "pkg/types/msgflags.go", "pkg/types/clocktypes.go", "pkg/event/call/mount.go", "pkg/event/call/mprotect.go", "pkg/event/call/inotify_add_watch.go", "cmd/trace.go:showMsg"]}
{"id": "C102", "title": "Names, modes and structs in a printed line", "statement": "In a line `swoll trace` prints, a ptrace request, resource, socket domain, protocol or level with a name is printed as the name (a listed few have none and print in decimal), a socket option as its name at its level, and the text tells the number; a socket type is its name and its two flags; a mode is the permissions as ls -l writes them; resource limits, timers and struct stat are printed member by member. False: that set-user-ID, set-group-ID and sticky bits show, and that what is printed for nanosleep depends on how long the task sleeps.", "quantifier": "every one of these system calls, every register and memory content", "why_tests_cant": "It ranges over all numbers, options with their levels, modes and contents of structs.", "anchors": ["pkg/event/call/ptrace.go", "pkg/event/call/prlimit64.go", "pkg/event/call/socket.go:SockFamily,SockType,SockProtocol", "pkg/event/call/sockopt.go:SockoptLevel,SockoptName", "pkg/event/call/nanosleep.go", "pkg/event/call/stat.go", "pkg/types/clocktypes.go"]}
{"id": "C103", "title": "The latency in a printed line", "statement": "The latency `swoll trace` prints is in milliseconds with three decimals, at least six characters wide, and the nearest microsecond to the time between entry and exit (ties either way) while the machine has been up for less than 2^53 ns; a longer latency is never printed as a smaller number. With the texts of flags, names, structs and the latency filled in, the output for a call is one line if no name, string or path of the task or container has a line feed.", "quantifier": "every pair of timestamps; every event, container and argument buffer, every order of a Go map", "why_tests_cant": "Two roundings, of a binary quotient and of its decimal digits, over all 2^53 durations.", "anchors": ["pkg/event/trace.go:Latency,LatencyMS", "cmd/trace.go:showMsg"]}
{"id": "C104", "title": "From the system call to the whole printed line", "statement": "When a task of a known container makes a system call that was asked for, the line `swoll trace` prints for it says exactly: the time between entry and exit to the nearest microsecond (in red from 1 ms on, yellow from 10 us on), the container, the task's name, OK or the kernel's name of the error the call returned, the call's name, and every parameter of the call (but those C90 lists) by its name with the value the task passed, flags and numbers by the names the manual gives them (C101, C102). The same holds without containers, with the process number instead of the container. Umount2 is printed as umount; getcwd is always OK; execve, shown when it is entered, too.", "quantifier": "every history of the machine, the observers and the hub; every decoded system call, every register and memory content, every result that is an int; machines up for less than 2^53 ns; every order of a Go map", "why_tests_cant": "It composes the kernel program, the wire format, the hub and the text of every kind of argument over all histories and all values.", "anchors": ["cmd/trace.go:showMsg,runTrace", "internal/bpf/probe.c", "pkg/event/trace.go:Ingest", "pkg/topology/hub.go:Run", "pkg/types/errno.go:Errno.String"]}
{"id": "C105", "title": "`swoll server`: from the system call to the websocket client", "statement": "A client of `swoll server` is written JSON only of events of containers the hub knows and of jobs that demanded the call, only events it asked for (up to hash collisions), each after it came, in the order they were taken; the JSON says who made the call, where, when, with what result and what arguments. A client that asked for containers and is there to the end gets each such event exactly once; one that asked for a job as often as the job's calls are in force. An event is sent only of calls a job demanded when they were entered, and of all of them while nothing stops and every rule is installed; no record is taken twice or lost between the buffer and the hub. The server ends only by one of five listed causes; anything else leaves it running, and without a blocked write every event is brought to everyone in finitely many steps. False: that no system call of a process in a container can end the server (a read of a negative count does), and that no job can (a name of no call does).", "quantifier": "every history of system calls, pods, jobs, deletions, clients, timers, blocked and failed writes, in every interleaving; every register and memory content; every table of names; every order of Go maps", "why_tests_cant": "It composes the kernel program, the hub, the topic tree and the connections over all interleavings, where a wrong step shows only as one client's missing or doubled event.", "anchors": ["cmd/server.go:runServer,jobWriter,traceWriter,jobReader,deleteJob", "pkg/topology/hub.go:Run,WriteEvent,PushJob,DeleteTrace", "pkg/topology/job.go:Run,WriteEvent", "pkg/topology/topology.go:Run,processEvent", "internal/pkg/pubsub/pubsub.go:Publish", "pkg/event/trace.go:Ingest,TraceEvent", "internal/bpf/probe.c"]}
{"id": "C106", "title": "`swoll server` /metrics: from the system call to the scrape", "statement": "Whatever goes on while a scrape of `swoll server` runs, every count in its answer is the number of times that call was left with that errno in that container's pid namespace after its metrics were switched on and since its counters were last removed (modulo 2^64, as a float64), under the pod, container and namespace the hub then had for it. With nothing going on the counts are exactly those of the calls seen in known containers, and a scrape always ends: it ends the server exactly if such a call has no name in swoll's tables, and is otherwise answered with an error exactly if one call was seen with two errnos that have no name. False: that no process in a container can end the server or stop its being scraped by system calls (call number 9999; two lseeks to just below 4 GiB), and that a container which stops does not spoil a scrape of the others.", "quantifier": "every history of the server's whose rules and counters fit their maps of 65535; every moment of each look at the counters and each lookup of a container; every order of the kernel's hash map", "why_tests_cant": "The count is made by the kernel program over all histories and read while it changes; a wrong count looks like any other number.", "anchors": ["cmd/prometheus.go:Collect", "cmd/server.go:runServer", "pkg/topology/hub.go:Run", "pkg/topology/topology.go:LookupContainer", "pkg/kernel/metrics/handler.go:QueryAll,PruneNamespace", "pkg/kernel/filter.go:AddMetrics", "internal/bpf/probe.c:swoll__update_metrics"]}
{"id": "C107", "title": "`swoll top`: from the system call to the screen", "statement": "Every row on the screen of `swoll top`, after any ticks and whatever went on during them, has the names the hub had for a pid namespace when a tick asked, and the number of times the row's call was left with the row's errno there (since its counters were last removed) when that tick looked. After a tick with nothing else going on, a call made in a container the hub knows has exactly one row, with the current number, if the call and the errno have names and no other namespace has a container of the same names. While no container stops, what the two graphs got so far adds up to the number of calls that succeeded and failed. The kernel never sends top a record; nothing that happens on the machine or to containers ends its hub; a tick ends. False: that the calls of every running container are shown under its own names (containers sharing a pid namespace are not), and that rows of stopped containers go.", "quantifier": "every history of system calls and container reports, with fewer than 65535 rules and counters; all ticks, every moment of each look and lookup; every order of the kernel's hash map; every sort order", "why_tests_cant": "The counts are made by the kernel program over all histories and read while they change; a wrong number looks like any other.", "anchors": ["cmd/top.go:cmdTop,lookupOrCreate,update", "pkg/topology/hub.go:NewHub,Run", "pkg/topology/topology.go:LookupContainer", "pkg/kernel/metrics/handler.go:QueryAll", "pkg/kernel/filter.go:AddMetrics", "internal/bpf/probe.c:swoll__update_metrics"]}
{"id": "C108", "title": "Copies of the API's objects share nothing with the original", "statement": "DeepCopy of a Trace, TraceList, TraceSpec or TraceStatus never panics, leaves memory as it was and returns an object in which a reader who follows every pointer finds the same, nil where there was nil and an empty list where there was an empty list. No address reachable from the copy is reachable from anything that existed before, and none is reachable along two ways, even if parts of the original overlap. So a program that is handed the copy (as the controller is by its cache) changes, whatever it does, nothing anyone else finds, and nothing anyone else does changes the copy. nil is copied to nil, and as an object to the nil interface. DeepCopyInto puts such a copy where it is told and changes nothing else; of nil it panics.", "quantifier": "every type of the API, every object of it, however it is laid out in memory (shared and overlapping slices and maps included), every later program over the values it holds", "why_tests_cant": "a test compares one object with its copy; that no field of any object is shared, and that no later sequence of writes shows through, ranges over all objects, layouts and programs", "anchors": ["api/v1alpha1/zz_generated.deepcopy.go: Trace.DeepCopyInto, Trace.DeepCopy, Trace.DeepCopyObject, TraceList.DeepCopyInto, TraceSpec.DeepCopyInto, TraceStatus.DeepCopyInto", "api/v1alpha1/trace_types.go: Trace, TraceList, TraceSpec, TraceStatus"]}
{"id": "C109", "title": "What the client prints for an event", "statement": "For an event that survives JSON (C63), `client create --oneshot` prints the line `swoll trace` would have printed on the server's machine, without the latency and with two more columns for the command. Both `create --oneshot` and `watch` have a line for every event the client has. From a watch line the container, command, system call, arguments, error and session can be told, if container and command contain no escape character; it shows every argument the create line shows, in its order (clone: flags first), texts, addresses and names of flags alike, numbers with their Go type, buffers as bytes. False of the code: that watch shows numbers as they are (close(3) is shown as \"%!s(types.InputFD=3)\"), and that it prints one line for an event: a traced program can put the line of another event into a path.", "quantifier": "every event as received from the kernel, every order of Go's map iterations on both sides, every container, every pair of lines", "why_tests_cant": "a test compares single lines of single events; that the two programs agree on every event, and that no two events share a line, ranges over all events", "anchors": ["cmd/client.go: cmdClientCreate, watchJob", "cmd/trace.go: cmdTrace", "pkg/event/trace.go: TraceEvent.ColorString, TraceEvent.UnmarshalJSON", "pkg/types/errno.go: Errno.ColorString", "pkg/event/call: Arguments"]}
{"id": "C110", "title": "The client makes of a message the event the server had", "statement": "From the text of the server's message alone, the client makes the event of C63 and C109: number, name, command, session, error, container and every argument (flags and names read back, buffers from base64, addresses and structs from their numbers). So for an event that survives JSON, the text makes `client create --oneshot` print the line `swoll trace` prints on the server's machine, without the latency and with two more columns for the command. Whatever the event, the server's message for it never ends the client. False of the code: that no message ends the client: a message without a system call does (the empty object, or the message of an event whose number were not in the server's table), and the text null is handed to the command as an event that is not there.", "quantifier": "every event as received from the kernel, every container, every order of Go's map iterations, every buffer address and memory behind it", "why_tests_cant": "a test sends single events through json.Marshal and Unmarshal; that the two directions agree on every text of every event of every call, and that none of them crashes the reader, ranges over all of them", "anchors": ["pkg/client/endpoint.go: readWebsock", "pkg/event/trace.go: TraceEvent.UnmarshalJSON", "pkg/types/errno.go: Errno.UnmarshalJSON", "pkg/types/sockaddr.go: SockAddr", "pkg/event/call: UnmarshalJSON methods"]}
{"id": "C111", "title": "What a user sees on the terminal is what happened in the containers they asked for", "statement": "Server, websocket and client together: whatever the machine, the jobs and the other clients do, the n-th event a client shows is the n-th readable one written to it, and it is a call the machine made, in a container the client asked for and demanded by a job, with its number, name, task name, session and container; if the event survives JSON, its arguments and result are the server's and the line printed is the one `swoll trace` prints on the server's machine without the latency. If everything written arrived, no message is over the limit and the pings are answered, nothing is lost: each such event asked for is shown, held or waiting exactly once (as often as the job's calls are in force for a watched job), and none that was not asked for. No text the server writes ends the client.", "quantifier": "every history of tasks, container reports, jobs, deletions, clients, reads and writes of the server, every client of it, every history of that client's stream, every order of both programs' map iterations", "why_tests_cant": "the claim spans two programs and a kernel and ranges over all interleavings of all three", "anchors": ["cmd/server.go:runServer,jobWriter,traceWriter", "pkg/topology/hub.go:Run,WriteEvent", "pkg/event/trace.go:MarshalJSON,UnmarshalJSON", "pkg/client/endpoint.go:readWebsock,writeWebsock", "cmd/client.go:watchJob"]}
{"id": "C112", "title": "The client's log has the server's message of every event that survives, one line for each", "statement": "`swoll client create --oneshot -o json`, which is what the trace controller's pods run: for an event that survives JSON, in a container with UTF-8 names, the line in the log is the endpoint and, as payload, the text the server would have sent if it had gone through its maps in the client's order; with the same order it is the server's message byte for byte. Whatever the message and whoever sent it, the client writes exactly one line. That the log tells events apart which the messages tell apart is false: connections to different IPv6 addresses give the same line.", "quantifier": "every event, container, endpoint, map order of server and client, memory behind a socket address; for the one line every text a server can send", "why_tests_cant": "ranges over all events and all texts a server could send, and over map orders no test chooses", "anchors": ["cmd/client.go: create --oneshot, lines 275-333", "pkg/client/endpoint.go: StreamMessage, readWebsock", "pkg/event/trace.go: MarshalJSON, UnmarshalJSON"]}
{"id": "C113", "title": "pretty_logs prints a client's log to its end, as swoll trace would have", "statement": "hack/tools/pretty_logs.go: a log of lines clients wrote, none longer than 65536 bytes, is printed to its end, line by line and in order; for an event that survives JSON the line printed is the one `swoll trace` prints on the server's machine without the latency and with one column less for the command; lines that are no JSON texts are passed over. That every log is printed to its end is false: a line of one byte, null and objects without an event end the program and a longer line ends the reading.", "quantifier": "every log, of any number of lines, for any messages, events, endpoints and map orders of the three programs", "why_tests_cant": "ranges over all logs and over the map orders of three programs", "anchors": ["hack/tools/pretty_logs.go: main", "cmd/client.go: create --oneshot", "cmd/trace.go", "pkg/client/endpoint.go: StreamMessage"]}
{"id": "C114", "title": "Commands over several endpoints stop at the first that fails, and what that leaves behind", "statement": "`swoll client create` and `swoll client delete` ask their endpoints one after the other in the order given. They end with status 0 only if every endpoint got the request and answered as wanted, so that the job has run on all of them, or was running and then was not; else they end with 1 at the first that did not, and nothing was sent to those behind it. A delete ends with 1 whenever it lists an endpoint at which no container matched the job, at which the id was deleted before, or twice the same endpoint. That a delete stops the job everywhere is false: an endpoint without a matching container leaves it running there and on all endpoints behind, and repeating the command asks the first endpoint only.", "quantifier": "every number of servers, list of endpoints, sequence of commands, interleaving with what the servers do for others and with container callbacks, end of a server and failure of a connection at any point", "why_tests_cant": "ranges over all interleavings of a command with several servers and over all crash points", "anchors": ["cmd/client.go: cmdClientDelete, cmdClientCreate", "pkg/client/endpoint.go: CreateTrace, DeleteTraceJob", "cmd/server.go: handlers of /jobs"]}
{"id": "C115", "title": "A request does what its URL says, and no URL leads in circles", "statement": "Whatever the method, path and query of a request: the server lists jobs, creates, deletes or watches the job, traces all containers or those of the namespace, pod or container, or shows metrics exactly as the URL names them, or it answers 301, 404 or 405. Every URL of the documented table works for all names that can be one component of a path. The page at a URL opens the event stream of what the URL names. A path that is not clean is redirected to the one that path.Clean's rules make of it, and one that has or lacks a last slash by mistake to the other. Following redirects, the third answer is no redirect, whatever methods are used. A path that is not found is not there for any method.", "quantifier": "every method, every path of any bytes and every query", "why_tests_cant": "ranges over all paths, including unclean ones, and all names in them", "anchors": ["cmd/server.go: runServer (routes), websockRedir"]}
{"id": "C116", "title": "Lists of jobs from several endpoints are true, and a failing endpoint costs its own list only", "statement": "`swoll client query running` and `query completed` show the endpoints in the order given, each as often as it is listed. A list that is shown for an endpoint was exactly the list of its running (completed) jobs at a moment since the command started (for ids that are well-formed text; else some of them). If no connection broke, every endpoint that is up when the command has ended has its list shown, whatever the others did. False of the code: the status tells of failures (it is always 0, also if nothing could be asked); the lists together show one moment; an endpoint that takes the request and does not answer does not hold up the others.", "quantifier": "every number of servers, list of endpoints, history before the command, interleaving of it with requests, commands, container callbacks and ends of servers, every failure of a connection, every order in which Go walks a map", "why_tests_cant": "ranges over all interleavings of the command with several servers and over all crash points", "anchors": ["cmd/client.go: runQuery, cmdClientQueryRun, cmdClientQueryCompleted", "pkg/client/endpoint.go: RunningJobs, CompletedJobs, getJobs", "cmd/server.go: getJobsHandler"]}
{"id": "C117", "title": "An interrupted server ends within fifteen seconds, takes nothing new and gives taken requests their time", "statement": "An interrupted `swoll server` has ended, with status 0, once fifteen seconds have passed, whatever its clients do and however often it is interrupted again; without an interrupt it does not end this way. After the interrupt it takes no new request. A request it had taken is given fifteen seconds: the server has not ended before then unless the request was answered (or became a websocket). If nothing is left to answer, it ends at once. False of the code: open streams are finished first (however many are open, the server ends under them without a second's delay); a running server listens (one that could not open its address stays up and can never be asked anything).", "quantifier": "every history of requests, answers, websockets opening and ending, interrupts, seconds passing and looks of the shutdown at the open connections, and both outcomes of opening the address", "why_tests_cant": "ranges over all interleavings of clients with the shutdown, of any length", "anchors": ["cmd/server.go: runServer, shutdown"]}
{"id": "C118", "title": "Several traces on one hub: named ones get their own events", "statement": "A program that runs several traces on one hub (RunTrace, AttachTrace, DeleteTrace): whatever unnamed traces run next to it, the callback attached to a trace with a name (as the command line makes them) is called once for each registration of its own trace for the event and never otherwise; deleting an unnamed trace leaves the registrations of named ones as they are. False of the code: that a name is generated for a trace without one, as the example says: the callback of an unnamed trace is called for every event of every trace, once for each trace registered for it, and deleting one unnamed trace ends all unnamed ones.", "quantifier": "every history of container starts and stops, events, deletions; every set of un-sampled traces, every tree of subscriptions the package reaches", "why_tests_cant": "ranges over all histories of the hub and all sets of traces and subscribers", "anchors": ["pkg/topology/hub.go: RunTrace, AttachTrace, DeleteTrace", "pkg/topology/job.go: NewJob, JobID, WriteEvent", "examples/kubernetes-hub/main.go: main"]}
{"id": "C119", "title": "A program that sets up the filter itself gets nothing before Enable, and afterwards what it named", "statement": "A program that uses the probe's filter without a hub: as long as it has not called Enable, no event is sent and no call is counted, whatever rules it adds and removes and whatever the machine does. After AddSyscall(name, -1) for some names and Enable, an event is sent when a task leaves a call (other than execve) exactly if the call is one of those named and the task was seen entering it, with what it entered and left with. FilterSelf changes nothing, wherever it is called. False of the code: that the programs examples/basic-trace and examples/kubernetes-basic show system calls (they never call Enable, and WithDefaultFilter sets up nothing); that FilterSelf keeps the program's own calls away.", "quantifier": "every list of names, every history of the machine's tasks and of calls of the filter, every table of system calls the program builds", "why_tests_cant": "absence of events over all histories of a machine", "anchors": ["pkg/kernel/filter.go: Enable, AddRule, AddSyscall, FilterSelf", "pkg/kernel/probe.go: WithDefaultFilter", "examples/basic-trace/main.go: main", "examples/kubernetes-basic/main.go: main", "internal/bpf/probe.c: swoll__run_nfilter"]}
{"id": "C120", "title": "The embedded probe is found by its name and restored as it is", "statement": "Asset hands out the embedded probe for its name, with slashes or backslashes between the parts, and an error for every other name; AssetDir lists exactly the next parts of the paths of the assets below a directory, and is an error elsewhere. RestoreAsset and RestoreAssets, if they return no error, leave the embedded bytes in the asset's file below the directory, readable at least by root; whatever they return, they change no other file and add only directories above it; below a directory the user may write to and without such entries, restoring the asset by its name or by a directory above it succeeds. False of the code: that the user can then use the file (a new file gets no permissions, so only root can read it and restoring again fails); that every name Asset accepts can be restored (after a backslash before the file name the directories are not made).", "quantifier": "every name, every content of the file system, every directory, ordinary users and root, every embedded object", "why_tests_cant": "ranges over all strings as names and all states of the file system", "anchors": ["pkg/kernel/assets/compiled.go: Asset, AssetInfo, AssetNames, AssetDir, RestoreAsset, RestoreAssets, _filePath", "pkg/kernel/assets/loader.go: LoadBPF, LoadBPFReader"]}
{"id": "C121", "title": "The logged rules of the kernel filter can be told apart", "statement": "The text of a filter rule, which the server and `swoll trace` log at debug level for every running rule: whatever rules a program has added and removed and whatever the machine's tasks did, two rules in the filter with the same text are the same rule with the same counters; a report of a filter that nobody changes meanwhile has one line for each rule, all different, and no other; the lines of the rules that AddSyscall, AddSampledSyscall and AddMetrics add name the mode, the namespace, the call (ALL for metrics) and the rate. False of the code: that a rule reads the same before and after AddRule (a metrics rule reads as one for sys_read before). For a rule made with any options, the text says what they said: the last option for each thing, numbers modulo 2^32, sys_read and ACTION_ALLOW if nothing was said.", "quantifier": "every history of the filter's calls with any rule options and of the machine's tasks, every namespace, call and sample rate, every order of the kernel's map", "why_tests_cant": "ranges over all histories of the filter and all pairs of rules", "anchors": ["pkg/kernel/filter.go: String, GetRunning, AddRule, NewFilterRule", "pkg/topology/hub.go: Run", "cmd/trace.go: cmdTrace"]}
{"id": "C122", "title": "Label selectors of swoll top mean what Kubernetes documents", "statement": "For every label selector that is a comma-separated list of conditions as Kubernetes documents them (key, !key, key=v, key==v, key!=v, key in (v,...), key notin (v,...)), `swoll top -l` shows exactly the running pods of its namespace whose labels meet every condition; != and notin are met by pods without the label. The words in and notin can be keys and values.", "quantifier": "every list of conditions with valid keys and values, every namespace, every pod", "why_tests_cant": "Selectors of any length and mix of operators, all label maps; the lexer treats keywords, blanks and symbols by context.", "anchors": ["cmd/top.go:cmdTop", "pkg/topology/kubernetes.go:WithKubernetesLabelSelector,Connect"]}
