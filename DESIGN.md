# Formal model of bgp/stayrtr in Rocq (Coq 8.16.1)

(The plan was written before the proofs; the trusted base and the findings
after it are kept current as the model grows.)

## Layout

`rocq/theories/`
* `Lib/`    arithmetic, byte and list lemmas (no model content)
* `Model/`  executable Gallina model of the Go code, one file per source area;
            every definition cites `/repo` file and lines
* `Spec/`   small, independent specifications used in theorem statements
* `Proofs/` lemmas
* `Props/`  the property theorems only, each closed with `exact`, followed by
            `Print Assumptions` and a non-vacuity `Example`

Go machine integers are `N`/`Z`; ranges guaranteed by Go's types appear as
well-formedness hypotheses (`u8`, `u16`, `u32`), and every conversion that can
wrap is written with an explicit `mod`. Go strings and `[]byte` are `list N`
(bytes). A `panic` is an explicit outcome. Goroutines and channels are
transition systems over explicit atomic steps.

## Plan per property

| id | model | how it is proved |
|----|-------|------------------|
| C01-C06 | `Model/Pdu.v`: the ten PDUs, `Write`, `Decode` with Go slice semantics incl. panics, int width a parameter | symbolic execution of encoder/decoder; big-endian lemmas; C02 also refuted for 32-bit `int` |
| C07-C11, C15, C17 | `Model/Data.v`, `Model/Cache.v`: records, keys, maps, ComputeDiff/ApplyDiff/AddSDsDiff/AddData | list induction; invariant over histories by `fold_left` |
| C12, C14, C10 | same | counterexample by `vm_compute` (`_refuted`), plus the strongest true part (`_partial`); C12 for a router any number of changes behind with `Spec/Behind.v`: the diffs of the history as a function of the sets fed in, their merge counted record by record |
| C13 | same | case analysis, wrap included |
| C16, C59 | `Model/Netip.v`: netip formatting and parsing, `Model/Format.v`: decimal, hex | decoding functions as left inverses |
| C18, C30-C33, C26 | `Model/Conc*.v` transition systems | invariants over all schedules; refutations by a concrete schedule, for C26 by one for each excess over the limit (`Props/LimitProps.v`); C32 in the missed position by an invariant of the connection (`Props/MissedProps.v`) |
| C19-C25, C27-C29 | `Model/Conn.v`: server-side connection, handlers, negotiation | case analysis, induction over PDU sequences |
| C34-C38 | `Model/Process.v`, `Model/Json.v` | list induction; `sort.Slice` as any sorted permutation |
| C39-C42 | `Model/Slurm.v` | list induction, bit-mask lemmas; what happens to entries that cannot be read in `Spec/SlurmExact.v` |
| C43-C49 | `Model/State.v`: state of the daemon, one refresh round | invariant over refresh histories; refinement to the rules of `Spec/Daemon.v` |
| C50 | `Model/Fetch.v` | state machine over HTTP exchanges |
| C51 | `Model/Trigger.v` | transition system |
| C52-C55, C60 | `Model/Rtrmon.v` | map lemmas, induction over PDU sequences |
| C56-C57 | `Model/Rtrdump.v` | composition of C01, C03, C19 |
| C58 | `Model/Session.v` | induction over PDU sequences |
| C61 | `Model/SshAuth.v` | decision rule |
| C62, C63 | `Model/ConcCache.v`, `Model/Concurrent.v` | schedules: refutation by a concrete one, invariant for the true part |
| C64 | `Model/Slurm.v`, `Model/Process.v` | composition of C41 and C34 |
| C65 | `Model/State.v` | invariant over refresh histories |
| C67 | `Model/Fetch.v` | transition system of the two downloads |
| C66, C70, C71 | `Model/Main.v`: what the flags end up as | composition with the models of server, daemon and clients; refutations by a value |
| C68 | `Model/Fetch.v`, `Model/State.v` | composition of C50 and C43-C46 |
| C73, C74 | `Model/SshConn.v`: goroutine of an SSH connection, accept loop | invariants over all schedules, a rank for the end; refutations by a schedule |
| C79 | `Model/Chain.v`: what a second server decodes from a dump or an export | composition of C57, C49 and C43; the dump of every reachable state can be read again; refutations: no time in the file |
| C69, C72, C76, C81, C82 | `Model/MonProc.v`: rtrmon's clients and comparator as goroutines, entries in a heap | invariant over all schedules (ownership of pointers, what each client and the comparator hold), a rank for coming to rest; refutations by a schedule |
| C75 | `Model/Admin.v`: SetMaxConnections beside `Model/Concurrent.v`, Read split from the test before it | invariants over all schedules (who is listed, who was counted out, who is still to go); refutations by a schedule |
| C77 | `Model/Ticker.v`: the loop of routineUpdate with its ticker and a clock | invariant over all timed executions; refutations by a schedule |
| C87 | `Model/Poller.v`: sessions of rtrmon with one polling goroutine each | invariants over all schedules against the PDUs received; refutations by a schedule |
| C78 | `Model/ClientGauge.v`: rtr_clients and rtr_pdus beside `Model/Concurrent.v`; a goroutine owes the handler a change between critical sections | invariant over all schedules (gauge plus what is owed = clients on the list), the list against the open connections; refutations by a schedule |
| C80 | `Model/Metrics.v`: the gauges set in applyUpdateFromNewState, beside `Model/State.v` | invariant over histories (also when nothing is served: `C80_exact_partial`) against `Spec/Gauges.v` (numbers of distinct identities); refutations by a history |
| C105 | `Model/MetricTimes.v`: all four results of FetchFile, what updateFile and updateSlurm do with them, lastchange and rpki_change | all sequences of downloads: no metric is ever set (one lemma about what is returned without error); invariant over histories for rpki_change, against `Spec/Requests.v` |
| C106 | `Model/HttpMux.v`: `http.ServeMux` (pattern syntax, conflicts, routing tree, cleaning of paths, redirections) with what the two programs register | `Spec/Endpoints.v`: pages by lists of names; the tree finds the exact leaf or the longest subtree (induction over the path), two plain patterns conflict if and only if they are equal |
| C107 | `Model/Conn.v`, `Model/Cache.v`, `Model/State.v` as for C95 and C96; what the flags make of the intervals, `Model/Main.v` | `Spec/Timers.v`: the router of `Spec/Router.v` with a clock after RFC 8210 section 6; invariants over timed schedules: the timed router is the untimed one until its data expires, its timer is set by exactly the polls that find something to serve; refutations by a value of the flags and by the schedules of C95 |
| C108, C109 | `Model/Format.v` (netip.ParsePrefix, ParseAddr), `Model/Process.v` (processData) | the grammar of prefixes as texts (`Spec/AddrText.v`, after RFC 4632, RFC 4291 section 2.2 and RFC 3986), relational; both directions by induction over the scanner's state; C109 with the sets of addresses of C41, refuted by two spellings that differ behind the length |
| C110, C111 | the server of `Model/Concurrent.v` fed with the caches of `Model/State.v` and the flags of `Model/Main.v` | `Spec/Rfc8210.v`: valid PDUs by absolute offsets; `Spec/Conversation.v`: answers as sequences of PDUs; invariant: every record in the cache was made by processData (so the maximum length is in range), every PDU queued or in hand is well-formed; what is queued plus what the reader still has to queue is a sequence of answers |
| C112 | `Model/Ticker.v` (routineUpdate with the ticker) and `Model/State.v` put together | `Spec/NotifyRate.v`: a log of refreshes with begin, end and notifications; invariant: whatever was notified is a minute before the next tick; refutations by schedules |
| C113 | `Model/Concurrent.v` (reader, sender and notifier of every connection) | `Spec/Answered.v`: rounds in which the reader and the sender get a turn each, and the answer owed; measure 4 per operation of the reader, 3 per PDU in the channel plus the sender's position, which drops in every round without a step of the notifier unless all is written |
| C114 | `Model/Concurrent.v` (notifier, readers and senders) | `Spec/Reached.v`; invariant over all clients listed at the beginning (those not yet reached have the Serial Notifies they had, the others one more) and the sum of the measures of C113 plus four per step left of the notifier |
| C115 | `Model/Concurrent.v` against `Model/Conn.v` (`session`) | `Spec/Isolated.v`: the reads a schedule delivers to one connection; refinement: every step of the server is one read of this connection or leaves its state and the answers queued and to be queued unchanged |
| C116 | `Model/Concurrent.v`, `Model/Cache.v`, the router of C95 | `Spec/Follow.v`: the router reads PDUs one by one, on the connections it has one after the other; C115 makes the answers those of the sequential server, C95 does the rest; with the measure of C113 the last answer arrives in every fair schedule |
| C117 | `Model/State.v`, `Model/Slurm.v`, `Model/JsonFile.v`, the router of C95 | `Spec/Exceptions.v`: filters and assertions on records, routes judged alike; entry-wise filtering shown to be record-wise, then C46, C91, C92 and the answer to a Reset Query |
| C118 | `Model/Concurrent.v`, the router of C95 | `Spec/Converge.v`, with `Spec/Follow.v` and `Spec/Reached.v`: the notification of C114, then the question and the answer of C116; one change behind needs one question |
| C119 | `Model/State.v`, `Model/Slurm.v`, `Model/JsonFile.v`, `Model/Concurrent.v`, the router of C95 | `Spec/NewFile.v`: as C118 for the server that the refreshes leave; the refreshes as lists fed to the server, the same for all routers, then C118, C46 and C117 |
| C120 | `Model/MonPage.v`: the gauges as a map from series to numbers, on top of `Model/MonProc.v`; connects and disconnects at any time | `Spec/MonPage.v`; invariant: what the page shows in terms of the state of the process; then C69, C81, C82 for what that state is at rest; refutation by a schedule with one URL for both sources; what that one series shows in every schedule, `Props/MonPageUrlProps.v` |
| C121 | `Model/Concurrent.v`: notifier, reader and sender of every connection | `Spec/Gone.v` (a channel nobody will empty); invariant under every step once the notifier waits for such a channel; refutation by a schedule of 256 unread notifications and a close; in every other state the freeing steps are given |
| C122 | `Model/Concurrent.v`, `Model/Cache.v` | `Spec/Held.v` (PDUs made and not yet written); invariant: a goroutine's remaining sends only shrink except on a read, where one answer bounds them; invariant on the kept diffs: the i-th from the end has at most i times two sets of records |
| C123 | `Model/Process.v`, `Model/Cache.v`, `Model/Conn.v`, `Model/Rtrmon.v` composed | `Spec/Agree.v` (what a file lists, what it offers); C34, C37, C08, C55 and C53 composed; refutation by an expired entry and by a key in capital letters |
| C124 | `Model/State.v`, `Model/Chain.v`, `Model/Conn.v`, `Model/Rtrmon.v` composed | `Spec/SelfCheck.v` (rtrmon on the port of a daemon that refreshes); C49, C55, C53 and the reading back of the export (C90) composed; refutation by an expired entry and a key in capital letters |
| C125 | `Model/Conn.v`, `Model/Cache.v`: two servers one after the other | `Spec/Restart.v` (a router that connects again, and begins afresh when refused); C20 for the refusal, C19 for the fresh start, the invariant of C95 from there on; refutation by equal session numbers |
| C126 | `Model/OneOff.v`: donePrimary, doneSecondary and stop of Compare beside `Model/MonProc.v` | `Spec/OneOff.v` (when both sources have been compared); the flag changes no schedule; for the field set, an invariant linking the variables to the announcements made, then that nothing can be received; refutation by the schedule of C81 |
| C127 | `Model/Boot.v`: run of stayrtr from its first line to the loop of routineUpdate, with the downloads, the HTTP server and the listeners as goroutines | `Spec/Boot.v` (in order, settled, loaded before); invariants over all schedules, a measure (at most nineteen steps); exactly which transports can serve somebody by an invariant and a schedule for each; refutation by a schedule |
| C128 | `Model/Descriptors.v`: the accept loop and FetchFile as far as they take and give back file descriptors; kernel and garbage collector as assumed there | `Spec/Descriptors.v`: descriptors counted from the events; invariant over all schedules; refutations for every limit and every setting of the flags |
| C129 | `Model/Silent.v`: routineUpdate and FetchFile against a web server, in seconds, with the limits set on the http.Transport | `Spec/Silent.v`: seconds since the last beginning, requests waiting and whether the server is answering, read off the steps; invariant over all schedules; refutation for every length of time |
| C83, C84 | `Model/Fetch.v` (FetchFile), `Model/Rtrdump.v` (flags and query) | case analysis for all locations, responses and flags; the bytes of the query against RFC 8210 |
| C85, C86 | `Model/ClientConc.v`: a client session as goroutines (StartRW, sender, callers of SendPDU), one step per access to c.connected, c.version or a channel | FIFO invariant over all schedules; refinement of StartRW to `Model/Session.v`; a measure for its return and for the end of the sender; refutations by a schedule and an invariant of what stays behind |
| C88-C92 | `Model/JsonText.v`: encoding/json's scanner, quoting and unquoting; `Model/JsonFile.v`: what it stores into the types of prefixfile.go and slurm.go, and how it writes them | texts against the grammar of RFC 8259 (`Spec/Rfc8259.v`, relational); read after write; an order-insensitive equivalence of values (`Spec/JsonSame.v`); Base64 of RFC 8416 (`Spec/Rfc8416.v`); composition with the histories of C43-C49 and C79; null in a SLURM filter in `Spec/SlurmNull.v` |
| C93, C94, C102 | `Model/GoTime.v`: `time.Parse` for RFC 3339 (both parsers of the library), `http.ParseTime` (all three layouts), `Format` for HTTP dates | a calendar that counts day by day from 1970 and grammars of RFC 3339 and RFC 9110 (`Spec/Calendar.v`); an exact characterisation of what is read; `date_forth`/`date_back`: the library's arithmetic is the calendar's; composition with C45 and with sequences of downloads |
| C95 | the server of `Model/Cache.v` and `Model/Conn.v` | a router written from RFC 8210 (`Spec/Router.v`: strict about errors 6 and 7, Reset Query after Cache Reset) talks to `process` for any list of updates, polls and new connections; invariant: the router has what was served at some point of the history and the number of changes since; the refutations for all continuations by an invariant for routers gone astray; for routers any number of changes behind the exact condition (`Spec/Behind.v`) |
| C96 | the refresh of `Model/State.v`, the JSON of `Model/JsonFile.v`, the server of `Model/Conn.v` and the router of `Spec/Router.v` put together | `Spec/EndToEnd.v`: any list of refreshes, polls and reconnections; each refresh is shown to be one update of the cache or none, so C95 applies with what C43 and C46 say is served; for texts with C92 |
| C97 | the server of `Model/Cache.v` and `Model/Conn.v` | `Spec/Rov.v`: RFC 6811 on sets of records, prefixes as sets of addresses; the newest diff kept always has its announcements first (invariant over updates), so every intermediate set contains the old or the new one and is contained in their union; for routers further behind (`Props/RovOrderProps.v`) the order of merged diffs by induction over the updates: by the change in which a record last came or went |
| C98 | the same and `processData` | order of the response (C35); the first covering record received is of the longest prefix; after any files, `Spec/RovAge.v` (how long each record has been listed) decides |
| C99 | `Model/MonJson.v`: the structures of diff.json and the encoder of `Model/JsonText.v` on top of `Model/MonProc.v` | `Spec/DiffJson.v`: members by name, objects shown by elements (base64 as in RFC 4648); invariant: every entry in the heap can be written; C81 for the contents; injectivity through the parser of C88 |
| C100 | `Model/PdqSort.v`: pdqsort_func, insertionSort_func, heapSort_func, siftDown_func, partition_func, partitionEqual_func, partialInsertionSort_func of package sort; pivot and shuffling are parameters | `Spec/Order.v`: preorder, comparison between < and <=, the order of VRPs by numbers; invariant: all steps are swaps within the part or of equivalent elements, everything before a part is at most everything in it |
| C101 | the critical sections of `Model/ConcCache.v` (serial read, data read) around any updates | `Spec/Overlap.v`: a router holding the serial of one state and the data of the same or a later one; invariant: both states are prefixes of one history, with the number of changes since each; a difference applied to what it leads to changes nothing |
| C103 (and C25) | `Model/Mutex.v`: every call that shares data as its accesses and lock operations in order, read-write locks with waiting writers, any number of goroutines | `Spec/Locking.v`: data race, deadlock, number of open connections; a checker for lock discipline (`scan`), an invariant that links what each goroutine holds with the locks, a measure that every step lowers; the checker run on every call; refutations by a schedule |
| C104 | `Model/Heap.v`: records and the byte slices of keys as places in a memory shared with the callers; `Copy`, `SetFlag`, `ComputeDiff`, `ApplyDiff`, `AddSDsDiff`, `AddData`, `SendSDs` on places | `Spec/Places.v`; every function only extends the memory and writes in place only to what it has just made; refinement of `Model/Cache.v` and `Model/Conn.v`. This justifies that the other files take records for values |

A property that is false of the code has a theorem `Cxx_…_refuted` (a concrete
witness) and the strongest true part as `Cxx_…_partial`; the manifest says what
is missing.

## Trusted base

1. **Coq's kernel** (8.16.1), with `coqchk` on the compiled files, and the
   virtual machine behind `vm_compute`.
2. **Axioms: none of our own.** `Print Assumptions` stands under every property
   theorem and prints "Closed under the global context" for all of them.
   (`coqchk` also lists axioms of `Coq.ssr` because `lia` loads that library;
   no theorem depends on them.)
3. **The reading of the code.** Nothing ties the model to `/repo` but the citations
   in the comments. The code was not run.
4. **The Go standard library and other libraries, as modelled**, see below.

### What is modelled

| source | model | left out |
|---|---|---|
| `lib/structs.go` | `Pdu.v`: types, `Write` of the ten PDUs, `Decode` (with slicing panics, `int` of 32 or 64 bits) | `String`/`Bytes` wrappers, `DecodeString` text |
| `lib/server.go` 61-392 | `Data.v`, `Cache.v`: records, keys, diffs, history, serials; `ConcCache.v`: the same with locks | log calls |
| `lib/server.go` 403-822, 1011-1032 | `Conn.v`: one connection, PDU by PDU; `Concurrent.v`: accept loop, readers, senders and notifier interleaved; `Admin.v`: `SetMaxConnections` beside them; `SshConn.v`: the SSH connection (510-571) and the accept loop with handshakes | socket options, the inside of TLS and SSH handshakes, `Start*` listeners, `loopTCP` error handling beyond refusing |
| `lib/client.go` 68-148 | `Session.v`: `StartRW`, the reader, the version rule; `ClientConc.v`: the same with sender, `SendPDU` and `Disconnect` as goroutines; `Main.v`: dialling (150-210) | sockets |
| `prefixfile/prefixfile.go` | `Json.v`: `GetASN`, `GetPrefix` and friends on decoded records; `JsonText.v`, `JsonFile.v`: the JSON text, both ways; `GoTime.v`: build times | digits of floating point numbers (a parameter) |
| `prefixfile/slurm.go` | `Slurm.v`: all filters and assertions; `JsonFile.v`: the JSON text | comments are read and not kept |
| `cmd/stayrtr/stayrtr.go` 193-322 | `Process.v`: `processData` | metrics |
| `cmd/stayrtr/stayrtr.go` 332-629 | `State.v`: state, refresh, staleness, SLURM, export; `Metrics.v`: the gauges about the data; `MetricTimes.v`: those about downloads and times; `ClientGauge.v`: the metrics about clients (691-710) | logging |
| `cmd/stayrtr/stayrtr.go` 640-665, 791 | `Trigger.v`: update requests | SIGHUP delivery |
| `cmd/stayrtr/stayrtr.go` 531-563 | `Ticker.v`: the ticker of Go 1.23 (one tick waits, Reset removes it), the head of the loop, the select | scheduling latency (the goroutine is never late), a clock that jumps |
| `cmd/stayrtr/stayrtr.go` 172-175, 798-806, `cmd/rtrmon/rtrmon.go` 1006-1012 | `HttpMux.v`: the HTTP endpoints | CONNECT requests, the listener |
| `cmd/stayrtr/stayrtr.go` 897-963 | `SshAuth.v`: password and key decision | the SSH protocol |
| `cmd/stayrtr/stayrtr.go` 60-130, 720-1010 | `Main.v`: flags, and what is made of them; `Boot.v`: the order in which downloads, listeners and HTTP server start (737-977) | registration of flags |
| `utils/utils.go` | `Fetch.v`: conditional downloads, locks; `GoTime.v`: the dates in headers; `Descriptors.v`: files that stay open; `Silent.v`: time limits | TCP, TLS, proxies, redirections |
| `cmd/rtrdump/rtrdump.go` | `Rtrdump.v`: PDU handler, request, when a file is written; `JsonFile.v`: its text; `Main.v`: flags | |
| `cmd/rtrmon/rtrmon.go` | `Rtrmon.v`: maps, RTR and file sources, comparison, thresholds; `MonProc.v`: the goroutines of the clients and the comparator over a heap of entries, diff.json, when a session ends the process; `MonJson.v`: the text of diff.json; `MonPage.v`: the metrics page (series and values, not the text format); `Poller.v`: the polling goroutines; `Main.v`: connecting | the index page, Prometheus |

`Props/RepoTests.v` runs the unit tests of /repo on the model (all but struct sizes, SHA-256 and
benchmarks), as evidence that it behaves like the code.

Not modelled at all: `ossec/` (pledge on OpenBSD), flag registration, loading of
certificates, profiling.

### Assumptions about what is not in /repo

* **Machine integers.** `int` has 64 bits except in C02's separate 32-bit theorem.
  `uint32(float64)` out of range is that of amd64 (implementation-defined in Go).
* **`sort.Slice`**: the theorems take any function that returns a permutation in which no
  later element is less than an earlier one (`sorts`, `sorts_int`). `PdqSort.v` models the
  function of Go 1.23 (pattern-defeating quicksort with insertion sort and heapsort), and
  C100 proves that it is such a function for both comparisons in use, one of which is not
  the strict order its documentation asks for. Which pivot is chosen and which
  pseudo-random swaps are made stays open; they only have to lie within the part sorted.
* **Descriptors** (C128): accept and open fail exactly if the process has as many
  descriptors as it may have; a file that nobody has any more is closed when the garbage
  collector has run, and not before; `http.Response.Body.Close` and
  `CloseIdleConnections` give back what a request took.
* **Time limits of `net/http`** (C129): those set in FetchFile take effect in the second
  they are reached, and nothing else ends an exchange in which the other side is alive and
  silent.
* **`net/netip`, `encoding/hex`, `strconv`, `fmt`**: the functions used are modelled
  (`Netip.v`, `Format.v`, `Json.v`) after the library's source (Go 1.23).
* **`encoding/json`** is modelled after its source (Go 1.23): `JsonText.v` (scanner, strings,
  depth limit, indentation-free output), `JsonFile.v` (struct fields by folded name, null,
  repeated names, numbers, base64, the slices). Errors are reported at once instead of
  collected; both callers give up on any. C43-C49 and C79 begin with decoded values
  (`e_decode`, any function); C88 and C90 have the text (`reads_text`). Where nil and empty
  differ (a missing `roas`), the model has both. The room `append` leaves behind a slice is
  any function of its length (`room`).
* **`time`, `net/http` dates** are modelled after their source (Go 1.23) in `GoTime.v`; the
  machine's time zone is any function from names and times to offsets (`local`). Elsewhere
  `time.Parse` is any function (`e_ptime`).
* **`net/http` routing** (`ServeMux`) is modelled after its source (Go 1.23) in `HttpMux.v`;
  which names of wildcards are letters in the sense of Unicode is any function (`wname`).
* **Floating point** (`asn` as a number in a file): `ParseFloat` is modelled as the exact
  rational rounded to the nearest double (ties to even); how a double is written is any
  function that is read back as the same double (`float_fmt`; `exact_is_fmt` is one).
* **`encoding/binary.Write`, `io.ReadFull`, `bytes.Buffer`** behave as documented.
* **`append`** writes into spare capacity where there is any; modelled where it can be
  seen (C49), otherwise slices are values, because nothing else writes to them.
* **Locks and channels.** One step of a transition system is one critical section, one
  channel operation, or one access to an unsynchronised shared field; such an access
  is taken as atomic. `sync.RWMutex` excludes as documented. A select with several
  ready cases may take any.
* **Time** is an integer. The four readings of the clock in a refresh may differ, but
  time does not go back (`ordered_h`). A comparison of rtrmon reads it once per threshold,
  with any results.
* **SHA-256** (`updateFile`) is a function; C43-C49 and C65 carry the hypothesis that it
  does not collide on the contents at hand.
* **Web server** (C50, C68): answers as RFC 9110 prescribes; validators tell versions
  apart where a theorem says so.
* **golang.org/x/crypto/ssh**: calls the callbacks, accepts if they return no error, and
  checks possession of the key (C61). The base64 decoding of the key list is modelled.

## Findings

Violations of a listed property by the code as it is, each with a refutation in
`Props/`. File and lines in `/repo`.

| id | what happens | where |
|---|---|---|
| C02 | with a 32-bit `int` an Error Report with an inner length from 2^31 on makes `Decode` panic | lib/structs.go:523-706, error report case |
| C09 | merging a third diff onto a merged one loses a withdrawal | lib/server.go:258-289 |
| C10 | a record withdrawn and announced again is announced to routers that have it (RFC 8210: error 7) | lib/server.go:258-289 |
| C12 | `AddSDsDiff` makes room for one diff and then appends another, so the history gets a nil entry per update and routers two behind are sent nothing but the new serial; the serial does not advance when data goes from empty to something | lib/server.go:336-392 |
| C18 | serial and data are read in two critical sections | lib/server.go:61-121 |
| C21 | `DisableBGPSec` is not applied to SSH clients | lib/server.go:450-508 |
| C24 | after an error report for a wrong version the query is still answered (`C24_exact_partial`: in no other case does anything follow) | lib/server.go:658-742 |
| C25, C26 | the connection counter is decremented twice / incremented twice; the limit is tested before counting | lib/server.go:403-649 |
| C27 | the reader decodes one PDU per `Read` and drops the rest; fragments disconnect | lib/server.go:766-813 |
| C30 | base version 0 without enforcement: the version is 1 for a moment during negotiation, a notification then looks up a session id that does not exist and crashes the server; `C30_exact_partial`: in no other case | lib/server.go:291-293, 631-742 |
| C32 | a `Disconnect` between the sender's test and its select leaves the goroutine for ever | lib/server.go:744-822 |
| C33 | a client that does not read blocks notifications for all | lib/server.go:639-649 |
| C35 | served order is longest-first only after the first load; later it is by the file a record came with, longest-first within each (`Spec/Arrival.v`) | stayrtr.go:300-319, lib/server.go:227-256 |
| C37 | duplicate router keys are served twice | stayrtr.go:269-298 |
| C38 | `GetASN` takes `SA1`, `AASS1`, numbers ≥ 2^32 and fractions | prefixfile.go:51-79 |
| C39, C40 | filter with unparsable prefix matches everything; an unparsable ASN is AS 0; a non-hex SKI is matched by its decodable part | slurm.go:93-192 |
| C41 | assertions with maxPrefixLength > 255 are cut to 8 bits | slurm.go:194-217 |
| C43 | a file without `roas` is accepted and not published; the old data stays | stayrtr.go:335-408 |
| C45, C65 | staleness: an unchanged file is never dropped, `generated` is not considered, the date is not renewed by a file with the same records, and data stays when the file that follows carries no time; and when the store is emptied, routers that poll are told "no data" and keep all they have | stayrtr.go:335-408 |
| C46 | expiry stops while the (unchanged) file is too old; a router key listed twice defeats the comparison of counts | stayrtr.go:372-408 |
| C48, C49 | dropping stale data neither notifies nor changes the export; the export can alias data of a reload | stayrtr.go:335-458 |
| C50 | ETag and Last-Modified are stored before the body is read | utils.go:110-172 |
| C52 | rtrmon: capital hex differs from RTR; RTR sources keep no time of last sight; `rtr.break` restarts FirstSeen | rtrmon.go:370-578 |
| C53 | a router key whose SKI is the text of a prefix overwrites a VRP, or one whose SKI contains `-` another router key; nothing else does (`Spec/Clash.v`) | rtrmon.go:388, 408 |
| C55 | rtrmon: withdrawals between sessions are missed; Cache Reset is ignored | rtrmon.go:467-567 |
| C56 | rtrdump writes withdrawn records as announced and writes incomplete dumps | rtrdump.go:77-134 |
| C57 | router keys under 4 bytes are sent and rejected by the client | lib/structs.go:560-705 |
| C61 | a damaged line in the list of keys lets the key in | stayrtr.go:897-963 |
| C62, C63 | `AddData` is not atomic; the version is read twice while a PDU is sent | lib/server.go:371-392, 1011-1032 |
| C67 | unlocked read of a map another goroutine writes: Go aborts the process | utils.go:138 |
| C66 | `-maxconn` is never passed on; `-enable.nodelay` is not copied by `NewServer` (lib/server.go:172-216), so it changes nothing; `-protocol 2` means 0; `-rtr.*` intervals outside 1..2^32-1 wrap or are replaced; `-refresh 0` crashes | stayrtr.go:60-130, 720-1010 |
| C70 | rtrmon's validation flags are never looked at: any server is accepted; the secondary ignores the password of the environment | rtrmon.go:60-130, 300-370, 740-900 |
| C73 | over SSH, global requests (keepalives) are not answered while RTR is served | lib/server.go:516-571 |
| C74 | the SSH handshake is made in the accept loop, without deadline: one silent client keeps all later ones out | lib/server.go:511, 577-604 |
| C79 | the file of rtrdump has neither `buildtime` nor `generated`, the export never has `generated`: a stayrtr with the default `-checktime` refuses them | cmd/rtrdump/rtrdump.go:167-175, cmd/stayrtr/stayrtr.go:436-439 |
| C69 | the totals include objects that have vanished and are in the grace period | rtrmon.go:428-440, 622, 800 |
| C72 | a download clears `Visible` of entries diff.json still refers to | rtrmon.go:434 |
| C76 | rtrmon exits when an RTR server cannot be reached or closes the connection | rtrmon.go:316-319, lib/client.go:111-118 |
| C82 | the serial is assigned before the data, the session when a response begins | rtrmon.go:530-549, 555 |
| C80 | dropping everything leaves the gauges as they were; keys are counted without removing duplicates | stayrtr.go:618, 431, 451-456 |
| C105 | rpki_refresh and refresh_requests_total are never set: FetchFile returns -1 and false on success, and on the other paths the callers return on the error before using them; rpki_change keeps the time of the file when a record expires | utils.go:119-147, 171; stayrtr.go:465-474, 498-509, 455 |
| C106 | paths that are equal, empty, without a slash in front or with a blank (`-export.path`, `-metrics.path`, `-file`) end the process with a panic instead of an error message; `-file` with a slash in front is found under any other name but not at its path | cmd/stayrtr/stayrtr.go:172-175, 798-806; cmd/rtrmon/rtrmon.go:1006-1012 |
| C107 | `-rtr.expire` below `-rtr.refresh` is accepted: routers that poll as told are without data between the two | cmd/stayrtr/stayrtr.go:761-763, lib/server.go:179-190 |
| C109 | bits behind the prefix length are neither refused nor cleared: `10.0.0.0/8` and `10.1.2.3/8` are served as two records, and the removal of the one is announced as a withdrawal while the other is still in the file | prefixfile/prefixfile.go:81-88, cmd/stayrtr/stayrtr.go:processData |
| C112 | Serial Notifies are not rate-limited to one per minute as RFC 8210 section 5.2 demands (`-refresh 10`, repeated SIGHUPs or update calls) | cmd/stayrtr/stayrtr.go:425-432, 543-563 |
| C83 | `http://a` and `HTTPS://…` are opened as files | utils.go:53 |
| C84 | a negative version is taken for 0; session and serial are cut to 16 and 32 bits | rtrdump.go:151-157, 173-174 |
| C78 | a Serial Query in a bad version takes the gauge below zero; a second PDU in a segment is not counted | server.go:445-447, 720-728, 766-812; stayrtr.go:698-710 |
| C85 | two goroutines that send during a downgrade can put version 1 after version 0 | lib/client.go:68-75, 119-124 |
| C86 | a Disconnect between the sender's test and its select leaves the sender behind; a caller of SendPDU stays behind when 256 PDUs wait | lib/client.go:73-75, 78-87, 96-100 |
| C75 | a client disconnected by `SetMaxConnections` is counted out twice, so the new limit does not hold; `SetMaxConnections(0)` disconnects everybody; comparison and list are not taken together | lib/server.go:402-416, 766-774, 1020-1032 |
| C77 | `initialSyncNotComplete` is set but never cleared: after a failed first reading every refresh restarts the ticker, so refreshes are the interval plus their duration apart; 30 s instead of a shorter `-refresh` until a file is read; `-refresh` of more than 2^63 ns wraps round | cmd/stayrtr/stayrtr.go:543-554 |
| C87 | the polling goroutine of rtrmon reads `sessionID` and `serial` whatever state the session is in: Serial Queries for session 0 or for a new session with an old serial; it looks up `c.qrtr` anew each time and can go on after its session | cmd/rtrmon/rtrmon.go:309-321, 595-613 |
| C89 | whatever follows the first JSON value of a file is ignored | stayrtr.go:184-191, slurm.go:82-91 |
| C91 | RFC 8416 writes `SKI` and `routerPublicKey` in Base64 without padding; such a SLURM file is refused as a whole (and its filters are not applied) | prefixfile/slurm.go:23, 37-38, 82-91 |
| C92 | a member that occurs twice is merged: the second `roas` is stored over the entries of the first, so an entry without `asn` gets the AS of another one; names are compared with Unicode folding, so a member `roaſ` (U+017F) replaces `roas` | stayrtr.go:184-191 |
| C93 | RFC 3339 build times with `t`, `z` or a second 60 are refused (the file is not used with `-checktime`); `T1:00:00`, `,5` and `+24:60` are accepted | stayrtr.go:345, 382 |
| C95 | a router that polls once after two changes gets an empty diff under the new serial; it keeps a withdrawn VRP and lacks a new one at all later polls; a router is not told when the set becomes empty (`No data available`, it keeps all); once the set is filled again the serial has moved by one in all and the router is sent the new set as additions: it keeps all old records for good, or, if some of them are listed again, gets announcements of what it has (error 7, fatal) - so a short period with an empty or stale file leaves every connected router with an error | server.go:371-395, 61-128 |
| C101 | serial and data are read in two critical sections: a change in between leaves a response of the old serial with the new data (the next difference announces what the router has), or, together with the extra history entries, an empty difference under a serial that had a change | server.go:61-121, 371-395 |
| C103, C25 | `connected++` and `connected--` of an SSH connection are not under the lock: updates get lost and the counter climbs for ever; the same for `version` and `connected` of a client, `lastts` and `lasthashCache` (read by updateSlurm while updateFile writes), serial and session in rtrmon | server.go:517, 570, 633, 710, 747; stayrtr.go:464-517; rtrmon.go:532, 557, 610 |
| C96 | seen from the file: a VRP gone from the file is kept by a router that polled before and after two refreshes; all VRPs are kept after a file with an empty list | stayrtr.go:335-459; server.go:371-395, 61-128 |
| C97 | merged diffs send withdrawals of older updates before announcements of newer ones: a route whose VRP was replaced loses its authorisation in between | server.go:258-289, 371-395 |
| C98 | of two VRPs for one prefix the one of the other AS may come first; after an update VRPs for new longer prefixes come after those for shorter ones | stayrtr.go:255-290; server.go:258-289 |
| C68 | as C50: the date or tag of an answer is kept before its body has been read, so after a download that broke off the server answers 304 and the older version stays | utils/utils.go:105-150 |
| C116 | as C95, on a busy server: two changes between two polls | server.go:371-395, 88-121 |
| C120 | with the same URL for both sources the two directions of vrp_diff are one series, which shows the second | rtrmon.go:821-834 |
| C121 | a router that lets its channel fill up and then goes blocks NotifyClientsLatest, and with it the update loop, for ever | server.go:631-637, 743-754, 1011-1013 |
| C123, C124 | rtrmon does not look at expiry and does not read router key identifiers, which the server sends in small letters: a server differs from its own file, and from its own export | rtrmon.go:370-442, 500-530; stayrtr.go:209-322, 631-637 |
| C125 | a restarted server may draw the session number of the run before (16 random bits) and counts from serial 0 again: a router of the old run is then told that it is up to date | lib/server.go:17-19, 172-176, 309-323 |
| C126 | the flag -oneoff is not looked at; were it, the comparison would stop, both clients would wait for ever and nothing would be written | rtrmon.go:49, 649-659, 882-885, 1003 |
| C127 | routers can be served by a daemon that then ends because the certificate, the SSH key or another address is not usable: a listener does not wait for the others | stayrtr.go:861-971 |
| C128 | -maxconn is not passed on, and a local file is opened at each refresh and never closed: out of descriptors, refreshes fail and the accept loop does not wait | lib/server.go:577-604, utils/utils.go:162, stayrtr.go:755-768 |
| C129 | there is no limit on the time a response may take; a web server that stops answering stops all refreshes, and with them the removal of stale data | utils/utils.go:57-73, stayrtr.go:555-605 |
