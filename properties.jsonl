{"id": "C01", "title": "PDU encode/decode round trip", "statement": "For every PDU the library can send (fields within their Go types, valid prefix of the PDU's family, 20-byte SKI, at least 4 bytes of SPKI, at most 262168 bytes on the wire), decoding its serialisation yields the same PDU, up to two documented normalisations: a non-empty error text gains one NUL byte and a version-0 End of Data loses its timers. In particular two different (normalised) PDUs never serialise to the same bytes.", "quantifier": "all ten PDU types and all field values, arbitrary length error texts, PDU copies and SPKIs", "why_tests_cant": "the value space (32/128-bit addresses, variable length fields) is unbounded", "anchors": ["lib/structs.go:Write", "lib/structs.go:Decode", "lib/structs.go:DecodeBytes"]}
{"id": "C02", "title": "Decoding never crashes", "statement": "Decoding an arbitrary byte string either returns a PDU or an error: no index or slice expression is ever out of range, whatever the embedded lengths say (on platforms with a 64-bit int).", "quantifier": "all byte strings of all lengths", "why_tests_cant": "crash-freedom over all inputs; a fuzzer only samples, and the length arithmetic has uint32 wrap-around corner cases", "anchors": ["lib/structs.go:Decode"]}
{"id": "C03", "title": "Stream framing", "statement": "Reading PDUs off a stream consumes exactly the number of bytes announced by each header: the serialisations of any PDU sequence, concatenated and followed by anything, decode to that sequence and leave exactly the rest; a strict prefix of one PDU's serialisation never decodes to a PDU.", "quantifier": "all PDU sequences, all cut points and all trailing bytes", "why_tests_cant": "quantifies over unbounded sequences and all cut points", "anchors": ["lib/structs.go:Decode", "lib/client.go:StartRW"]}
{"id": "C04", "title": "Announced length is the real length", "statement": "For every PDU whose total size is below 2^32, the bytes emitted are either none at all (Router Key with an SKI that is not 20 bytes) or exactly as many as the length field in the emitted header says.", "quantifier": "all PDU values", "why_tests_cant": "holds for every variable length field, not just samples", "anchors": ["lib/structs.go:Write"]}
{"id": "C05", "title": "Only well-formed PDUs are accepted", "statement": "Decoding succeeds exactly when the type is one of the ten known ones, the announced length is within 8..262168, that many bytes are present and the payload length is the one the type prescribes (with consistent inner lengths for Error Report); the fields are then the big-endian values at their RFC 8210 offsets.", "quantifier": "all byte strings", "why_tests_cant": "an iff over every byte string", "anchors": ["lib/structs.go:Decode"]}
{"id": "C06", "title": "Decoded PDUs re-serialise to what was received", "statement": "Serialising a PDU that was decoded gives back exactly the bytes consumed if and only if the frame was canonical: reserved bytes zero, prefix length within the family's bounds (or 255), End of Data of the length its version prescribes, Error Report without text.", "quantifier": "all byte strings accepted by the decoder", "why_tests_cant": "quantifies over every accepted byte string", "anchors": ["lib/structs.go:Decode", "lib/structs.go:Write"]}
{"id": "C07", "title": "ComputeDiff is exact set difference", "statement": "ComputeDiff(new,prev) returns in `added` exactly the records of new whose identity is not in prev (order preserved, flag announce), in `removed` exactly those of prev not in new (flag withdraw), and in `unchanged`, when asked for, exactly those of prev that are in new, untouched.", "quantifier": "all lists of VRPs and router keys, with duplicates and arbitrary flags", "why_tests_cant": "unbounded lists, duplicates, mixed record kinds", "anchors": ["lib/server.go:ComputeDiff", "lib/server.go:ConvertSDListToMap"]}
{"id": "C08", "title": "The served set is the last set fed in", "statement": "After any history of AddData calls the set of records served to a Reset Query is exactly the set of records passed to the last call, every one flagged as announce.", "quantifier": "all histories (lists of AddData arguments)", "why_tests_cant": "induction over unbounded update histories", "anchors": ["lib/server.go:AddData", "lib/server.go:AddSDsDiff", "lib/server.go:ApplyDiff", "lib/server.go:GetCurrentSDs"]}
{"id": "C09", "title": "Merging two diffs is sequential application", "statement": "For a router applying announce/withdraw records to its set, applying ApplyDiff(d2,d1) has the same result as applying d1 and then d2, whenever d1 is a difference for the router's set and d2 for the result.", "quantifier": "all sets and all pairs of diffs computed between successive sets", "why_tests_cant": "unbounded sets and diff chains", "anchors": ["lib/server.go:ApplyDiff"]}
{"id": "C10", "title": "Merged diffs are clean", "statement": "A merged diff sent to a router never announces a record the router already has and never withdraws one it does not have (RFC 8210 error codes 7 and 6).", "quantifier": "all chains of updates", "why_tests_cant": "needs all add/remove/re-add histories", "anchors": ["lib/server.go:ApplyDiff"]}
{"id": "C11", "title": "AddData reports and publishes exactly real changes", "statement": "AddData returns true exactly when the record set changed; when it returns false nothing observable changes (serial, data, history); when it returns true and the previous set was non-empty the serial advances by one modulo 2^32.", "quantifier": "all reachable server states and all inputs", "why_tests_cant": "all states and all inputs", "anchors": ["lib/server.go:AddData", "lib/server.go:AddSDsDiff", "lib/server.go:generateSerial"]}
{"id": "C12", "title": "Incremental synchronisation is correct", "statement": "A router that holds the set published under serial s and is answered with a diff for its Serial Query (s) holds, after applying the diff, exactly the set published under the serial in the closing End of Data.", "quantifier": "all histories, all serials a router may hold, all values of KeepDifference", "why_tests_cant": "depends on the whole update history and on how far behind the router is", "anchors": ["lib/server.go:GetSDsSerialDiff", "lib/server.go:getSDsSerialDiff", "lib/server.go:AddSDsDiff"]}
{"id": "C13", "title": "Unknown serials get a Cache Reset", "statement": "A Serial Query whose serial is ahead of the server's or further behind than the number of diffs kept is never answered with a diff; a query for the current serial is answered with the empty diff.", "quantifier": "all reachable states and all 2^32 serials, including after serial wrap-around", "why_tests_cant": "32-bit boundary and wrap-around behaviour", "anchors": ["lib/server.go:getSDsSerialDiff"]}
{"id": "C14", "title": "A serial names one data set", "statement": "Two different non-empty data sets are never served under the same serial within fewer than 2^32 updates.", "quantifier": "all histories", "why_tests_cant": "counter behaviour over unbounded histories with emptyings and refills", "anchors": ["lib/server.go:generateSerial", "lib/server.go:AddSDsDiff"]}
{"id": "C15", "title": "Diff history is bounded", "statement": "With KeepDifference = k > 0 the server never keeps more than k diffs, whatever the history.", "quantifier": "all histories and all k > 0", "why_tests_cant": "unbounded histories", "anchors": ["lib/server.go:AddSDsDiff"]}
{"id": "C16", "title": "Record identity keys do not collide", "statement": "Two records (VRPs with valid prefixes or router keys) have the same HashKey exactly when they are Equal: distinct prefixes, max lengths, ASNs, SKIs or keys never collide, nor does a VRP collide with a router key.", "quantifier": "all pairs of records", "why_tests_cant": "injectivity of textual formatting over 2^128 addresses", "anchors": ["lib/server.go:HashKey", "lib/server.go:Equals"]}
{"id": "C17", "title": "Serials move forward", "statement": "Over any history of AddData calls the serial never changes except by +1 modulo 2^32, and it equals the number of changing updates applied to a non-empty set.", "quantifier": "all histories", "why_tests_cant": "unbounded histories", "anchors": ["lib/server.go:generateSerial", "lib/server.go:GetCurrentSerial"]}
{"id": "C18", "title": "A response is one consistent snapshot", "statement": "Under any interleaving of queries and updates, the data and the serial number in one response describe the same published data set.", "quantifier": "all interleavings of one query handler with an updater", "why_tests_cant": "scheduling", "anchors": ["lib/server.go:RequestCache", "lib/server.go:RequestNewVersion", "lib/server.go:GetCurrentSerial", "lib/server.go:GetCurrentSDs"]}
{"id": "C19", "title": "Reset Query response shape", "statement": "With data available a Reset Query is answered by one Cache Response, then exactly one data PDU per sendable record in order with its fields, then one End of Data with the same session and the current serial, all in the client's negotiated version; without data by one No Data error and nothing else.", "quantifier": "all server contents and client states", "why_tests_cant": "all contents", "anchors": ["lib/server.go:RequestCache", "lib/server.go:SendSDs", "lib/server.go:SendData"]}
{"id": "C20", "title": "Serial Query decision", "statement": "A Serial Query is answered: wrong session -> Corrupt Data error and disconnect; no data -> No Data error; serial outside the history -> Cache Reset; otherwise Cache Response, the diff records, End of Data with the current serial. Nothing else is sent.", "quantifier": "all server states, sessions, serials, versions", "why_tests_cant": "all combinations", "anchors": ["lib/server.go:RequestNewVersion"]}
{"id": "C21", "title": "Router keys go only to clients that may have them", "statement": "No Router Key PDU is ever sent to a version-0 client, nor to any client when the server is configured with DisableBGPSec, whatever transport the client uses.", "quantifier": "all transports, configurations and contents", "why_tests_cant": "configuration x transport matrix and all contents", "anchors": ["lib/server.go:SendData", "lib/server.go:acceptClientTCP", "lib/server.go:acceptClientSSH", "lib/server.go:DisableBGPsec"]}
{"id": "C22", "title": "Responses are in the negotiated version", "statement": "Every PDU sent in answer to a query carries the version negotiated for that client, which is never above the server's.", "quantifier": "all queries, states and configurations", "why_tests_cant": "all states", "anchors": ["lib/server.go:SendPDU", "lib/server.go:HandlePDU"]}
{"id": "C23", "title": "Version negotiation", "statement": "The first supported version a client uses, lowered to the server's own, is fixed for the session: it never changes again; a PDU in an unsupported or different version is answered with error 4 and disconnection.", "quantifier": "all sequences of client PDUs and all configurations", "why_tests_cant": "unbounded PDU sequences", "anchors": ["lib/server.go:checkVersion", "lib/server.go:HandlePDU", "lib/server.go:SetVersion"]}
{"id": "C24", "title": "Nothing follows a fatal error", "statement": "Once the server has queued a fatal error report for a client (bad version, corrupt data) it queues nothing further for it and leaves no goroutine blocked on it.", "quantifier": "all query kinds, cache sizes and configurations", "why_tests_cant": "depends on cache size relative to the 256-slot queue and on schedules", "anchors": ["lib/server.go:Start", "lib/server.go:checkVersion", "lib/server.go:HandlePDU", "lib/server.go:SendRawPDU"]}
{"id": "C25", "title": "Connection counter is exact", "statement": "The server's connection counter always equals the number of clients currently in its client list.", "quantifier": "all sequences of connects, PDUs and disconnects", "why_tests_cant": "unbounded event sequences", "anchors": ["lib/server.go:ClientConnected", "lib/server.go:ClientDisconnected", "lib/server.go:Disconnect"]}
{"id": "C26", "title": "Connection limit holds", "statement": "With MaxConn = m > 0 at most m clients are ever being served at the same time.", "quantifier": "all interleavings of accepts, starts and disconnects", "why_tests_cant": "scheduling: the counter is incremented by another goroutine than the one that checks it", "anchors": ["lib/server.go:loopTCP", "lib/server.go:acceptClientTCP", "lib/server.go:ClientConnected"]}
{"id": "C27", "title": "TCP segmentation does not matter", "statement": "What a server answers to a client's byte stream depends only on the stream, not on how TCP cuts it into reads.", "quantifier": "all byte streams and all ways to cut them", "why_tests_cant": "all cut points", "anchors": ["lib/server.go:Start"]}
{"id": "C28", "title": "Timers are the configured ones", "statement": "Every End of Data carries the configured refresh, retry and expire intervals, or 3600/600/7200 where the configuration says 0.", "quantifier": "all configurations and clients", "why_tests_cant": "all configuration values", "anchors": ["lib/server.go:NewServer", "lib/server.go:SetIntervals", "lib/server.go:SendSDs"]}
{"id": "C29", "title": "Session identifiers", "statement": "A server has one session id per protocol version it speaks, distinct across versions, unchanged for its lifetime; responses and notifications use the one of the client's version.", "quantifier": "all random seeds and versions", "why_tests_cant": "all 65536 seeds", "anchors": ["lib/server.go:NewServer", "lib/server.go:GenerateSessionId", "lib/server.go:GetSessionId", "lib/server.go:NotifyClientsLatest"]}
{"id": "C30", "title": "Session lookup never crashes", "statement": "Looking up the session id of a connected client never indexes out of range, under any interleaving of negotiation and notification.", "quantifier": "all interleavings and base versions", "why_tests_cant": "scheduling", "anchors": ["lib/server.go:GetSessionId", "lib/server.go:NotifyClientsLatest", "lib/server.go:checkVersion"]}
{"id": "C31", "title": "In-order, loss-free delivery", "statement": "At every point of every schedule the bytes written to a connection are the serialisations of a prefix of the PDUs queued for it, in order; while the connection stays up nothing is lost or duplicated.", "quantifier": "all interleavings of reader, notifier and sender", "why_tests_cant": "scheduling", "anchors": ["lib/server.go:sendLoop", "lib/server.go:SendRawPDU", "lib/server.go:Notify"]}
{"id": "C32", "title": "Disconnect always ends the sender", "statement": "After Disconnect the sender goroutine always terminates and the connection is closed, under every schedule.", "quantifier": "all interleavings of Disconnect with the send loop", "why_tests_cant": "scheduling (lost wake-up)", "anchors": ["lib/server.go:Disconnect", "lib/server.go:sendLoop"]}
{"id": "C33", "title": "One stuck client does not block updates", "statement": "Notifying clients after an update always completes, even if some client has stopped reading.", "quantifier": "all client behaviours and queue fill levels", "why_tests_cant": "liveness under adversarial clients", "anchors": ["lib/server.go:NotifyClientsLatest", "lib/server.go:Notify", "lib/server.go:SendRawPDU"]}
{"id": "C34", "title": "JSON conversion is sound and complete for VRPs", "statement": "The VRPs produced from a JSON list are exactly those of its entries with a parsable prefix and ASN, 0 < prefix length <= maxLength <= address size and not expired, each once, with the entry's values.", "quantifier": "all JSON lists and clock values", "why_tests_cant": "unbounded lists", "anchors": ["cmd/stayrtr/stayrtr.go:processData", "cmd/stayrtr/stayrtr.go:isValidPrefixLength"]}
{"id": "C35", "title": "Sub-prefixes are announced first", "statement": "In the response to a Reset Query a VRP for a longer prefix is never sent after one for a shorter prefix (draft 8210bis section 11), and VRPs for the same prefix are contiguous.", "quantifier": "all JSON lists and update histories", "why_tests_cant": "ordering over all lists and histories", "anchors": ["cmd/stayrtr/stayrtr.go:processData", "lib/server.go:ApplyDiff"]}
{"id": "C36", "title": "Counters of the conversion", "statement": "The IPv4/IPv6 totals reported for a JSON list are the numbers of acceptable entries of each family before de-duplication.", "quantifier": "all JSON lists", "why_tests_cant": "unbounded lists", "anchors": ["cmd/stayrtr/stayrtr.go:processData"]}
{"id": "C37", "title": "Router keys: conversion", "statement": "The router keys produced are exactly the unexpired entries whose SKI is hexadecimal, with decoded SKI, each once.", "quantifier": "all JSON lists", "why_tests_cant": "unbounded lists", "anchors": ["cmd/stayrtr/stayrtr.go:processData"]}
{"id": "C38", "title": "AS number parsing", "statement": "A JSON AS number given as n or as a string of digits optionally preceded by AS (any case) is read as exactly that number when below 2^32 and rejected otherwise.", "quantifier": "all strings and numbers", "why_tests_cant": "unbounded strings", "anchors": ["prefixfile/prefixfile.go:GetASN2"]}
{"id": "C39", "title": "SLURM prefix filters", "statement": "With filters present, FilterOnVRPs splits the list, order preserved, into removed and kept, where a VRP is removed exactly when some filter's prefix (if given) covers it and its ASN (if given) equals the VRP's; a filter never removes a VRP outside its prefix.", "quantifier": "all VRP lists and filter lists", "why_tests_cant": "all prefix/filter pairs of both families", "anchors": ["prefixfile/slurm.go:FilterOnVRPs"]}
{"id": "C40", "title": "SLURM BGPsec filters", "statement": "FilterOnBRKs splits the list, order preserved; a key is removed exactly when some filter with at least one criterion agrees with it on every criterion it gives (ASN, SKI); keys whose SKI is not hexadecimal are never removed by SKI.", "quantifier": "all key lists and filter lists", "why_tests_cant": "all lists, cache of decoded SKI across filters", "anchors": ["prefixfile/slurm.go:FilterOnBRKs"]}
{"id": "C41", "title": "SLURM assertions always win", "statement": "Every parsable prefix assertion appears in the result with its prefix, ASN and max length (at least the prefix length) whatever the filters say, and every BGPsec assertion with its SKI in hexadecimal.", "quantifier": "all SLURM files and inputs", "why_tests_cant": "all max length values, all lists", "anchors": ["prefixfile/slurm.go:AssertVRPs", "prefixfile/slurm.go:AssertBRKs", "prefixfile/slurm.go:FilterAssert"]}
{"id": "C42", "title": "SLURM filtering is idempotent", "statement": "Applying the filters to an already filtered list removes nothing more.", "quantifier": "all lists and filters", "why_tests_cant": "all lists", "anchors": ["prefixfile/slurm.go:FilterOnVRPs", "prefixfile/slurm.go:FilterOnBRKs"]}
{"id": "C43", "title": "A successful refresh publishes exactly the file", "statement": "When a refresh obtains a fresh, different and recent file, the served set afterwards is exactly the SLURM-processed valid content of that file.", "quantifier": "all files, SLURM files, prior states and times", "why_tests_cant": "all prior histories", "anchors": ["cmd/stayrtr/stayrtr.go:updateFromNewState", "cmd/stayrtr/stayrtr.go:applyUpdateFromNewState", "cmd/stayrtr/stayrtr.go:routineUpdate"]}
{"id": "C44", "title": "A failed refresh changes nothing", "statement": "When fetching or parsing fails or the file is unchanged, the served set only changes by dropping records that expired; serial and data are otherwise unchanged.", "quantifier": "all failure combinations and histories", "why_tests_cant": "all failure points", "anchors": ["cmd/stayrtr/stayrtr.go:updateFile", "cmd/stayrtr/stayrtr.go:updateSlurm", "cmd/stayrtr/stayrtr.go:routineUpdate"]}
{"id": "C45", "title": "Stale data is dropped", "statement": "With time checking on, after any refresh the server does not serve data built more than 24 hours before that refresh.", "quantifier": "all histories of refreshes and clock values", "why_tests_cant": "time and history dependent", "anchors": ["cmd/stayrtr/stayrtr.go:updateFromNewState", "cmd/stayrtr/stayrtr.go:reloadFromCurrentState", "cmd/stayrtr/stayrtr.go:routineUpdate"]}
{"id": "C46", "title": "Expired records are withdrawn", "statement": "After any refresh no served VRP or router key is past its expiry time.", "quantifier": "all histories of refreshes and clock values", "why_tests_cant": "time and history dependent", "anchors": ["cmd/stayrtr/stayrtr.go:reloadFromCurrentState", "cmd/stayrtr/stayrtr.go:processData"]}
{"id": "C47", "title": "Re-reading identical data is silent", "statement": "Processing data that yields the same records again changes neither serial nor data and notifies nobody.", "quantifier": "all states and inputs", "why_tests_cant": "all states", "anchors": ["cmd/stayrtr/stayrtr.go:applyUpdateFromNewState", "lib/server.go:AddData"]}
{"id": "C48", "title": "Every change is notified", "statement": "If notifications are on, a refresh that changes the served set sends one Serial Notify with the new serial and the right session id to every connected client; if it does not change it, none.", "quantifier": "all states and client lists", "why_tests_cant": "all states", "anchors": ["cmd/stayrtr/stayrtr.go:applyUpdateFromNewState", "lib/server.go:NotifyClientsLatest"]}
{"id": "C49", "title": "The HTTP export matches what is served", "statement": "The JSON exported over HTTP, converted again at the time of the last change, is exactly the set served over RTR.", "quantifier": "all histories of refreshes", "why_tests_cant": "all histories", "anchors": ["cmd/stayrtr/stayrtr.go:exporter", "cmd/stayrtr/stayrtr.go:applyUpdateFromNewState"]}
{"id": "C50", "title": "A failed download is retried", "statement": "A download that fails after the response headers were received is repeated at the next refresh until the content has been read once.", "quantifier": "all sequences of server responses and failures", "why_tests_cant": "failure at every point of the exchange", "anchors": ["utils/utils.go:FetchFile"]}
{"id": "C51", "title": "A triggered update is carried out", "statement": "Whenever the update endpoint answers success, a refresh starts after that moment; at most one trigger is queued.", "quantifier": "all interleavings of triggers and refreshes", "why_tests_cant": "scheduling", "anchors": ["cmd/stayrtr/stayrtr.go:TriggerUpdate", "cmd/stayrtr/stayrtr.go:routineUpdate"]}
{"id": "C52", "title": "rtrmon diff is exact", "statement": "The only-primary (only-secondary) set is exactly the objects visible in one source and not visible in the other; the per-threshold count is the number of those first seen on one side by the threshold and absent from the other since.", "quantifier": "all pairs of object maps and thresholds", "why_tests_cant": "all maps", "anchors": ["cmd/rtrmon/rtrmon.go:Diff", "cmd/rtrmon/rtrmon.go:countUnmatched"]}
{"id": "C53", "title": "rtrmon map rebuild contract", "statement": "The rebuilt map contains every parsable object of the new file, keeps FirstSeen of objects that stayed visible, keeps vanished objects as invisible for exactly the grace period and nothing else; the reported number is the count of the latter.", "quantifier": "all maps, files and clock values", "why_tests_cant": "all maps and times", "anchors": ["cmd/rtrmon/rtrmon.go:BuildNewVrpMap"]}
{"id": "C54", "title": "rtrmon unchanged-source contract", "statement": "When the source reports no change every visible object stays visible with LastSeen = now, invisible ones are kept only during the grace period, FirstSeen never changes.", "quantifier": "all maps and clock values", "why_tests_cant": "all maps and times", "anchors": ["cmd/rtrmon/rtrmon.go:UpdateCurrentVrpMap"]}
{"id": "C55", "title": "rtrmon mirrors the RTR server", "statement": "After each End of Data the monitor's object set is exactly the set the RTR server served under that serial, also across reconnects and cache resets.", "quantifier": "all PDU sequences over any number of sessions", "why_tests_cant": "unbounded sessions", "anchors": ["cmd/rtrmon/rtrmon.go:HandlePDU", "cmd/rtrmon/rtrmon.go:ClientConnected"]}
{"id": "C56", "title": "rtrdump records exactly the announced data", "statement": "The dump holds exactly the records announced in the response and the session and serial of the End of Data; withdrawn records are not in it.", "quantifier": "all responses (reset and serial mode)", "why_tests_cant": "all PDU sequences", "anchors": ["cmd/rtrdump/rtrdump.go:HandlePDU"]}
{"id": "C57", "title": "End to end: dump equals cache", "statement": "Dumping a server over the wire (serialise, transport, decode, collect) yields exactly the server's current VRPs and (version 1, 20-byte SKI) router keys and its serial and session.", "quantifier": "all server contents", "why_tests_cant": "composition over all contents", "anchors": ["lib/server.go:RequestCache", "lib/structs.go:Decode", "cmd/rtrdump/rtrdump.go:HandlePDU"]}
{"id": "C58", "title": "Client sessions only ever downgrade", "statement": "A client session's version never increases: it changes only from 1 to 0 on receiving a version-0 PDU, and every PDU is delivered to the handler in stream order.", "quantifier": "all PDU sequences", "why_tests_cant": "unbounded sequences", "anchors": ["lib/client.go:StartRW"]}
{"id": "C59", "title": "Textual prefixes round trip", "statement": "The text form of every valid prefix parses back to the same prefix, so a dump can be loaded by another server unchanged.", "quantifier": "all IPv4 and IPv6 prefixes", "why_tests_cant": "2^128 addresses", "anchors": ["cmd/rtrdump/rtrdump.go:HandlePDU", "prefixfile/prefixfile.go:GetPrefix2"]}
{"id": "C60", "title": "Threshold flag parsing", "statement": "The visibility thresholds flag accepts exactly comma separated 32-bit integers and yields them sorted ascending; printing and re-parsing yields the same thresholds.", "quantifier": "all strings and lists", "why_tests_cant": "unbounded strings", "anchors": ["cmd/rtrmon/rtrmon.go:Set", "cmd/rtrmon/rtrmon.go:String"]}
{"id": "C61", "title": "SSH authentication decision", "statement": "An SSH client is let in exactly when no method is enabled, or password is enabled and user and password both match, or key is enabled and either bypass is on or its key is listed.", "quantifier": "all configurations and credentials", "why_tests_cant": "all credential strings", "anchors": ["cmd/stayrtr/stayrtr.go:run"]}
{"id": "C62", "title": "Concurrent updates are serialised", "statement": "When several updates of the cache run concurrently the served set afterwards is the one given by one of them, as if they had run one after the other.", "quantifier": "all interleavings of updates", "why_tests_cant": "scheduling", "anchors": ["lib/server.go:AddData", "lib/server.go:applyDiff"]}
{"id": "C63", "title": "Serial Notify names the right session", "statement": "Every Serial Notify carries the session id that belongs to the version in its header, also while a client is negotiating its version.", "quantifier": "all interleavings of negotiation and notification", "why_tests_cant": "scheduling", "anchors": ["lib/server.go:NotifyClientsLatest", "lib/server.go:Notify"]}
{"id": "C64", "title": "Local assertions are served", "statement": "Every SLURM prefix assertion with a valid prefix of non-zero length and a max length within the address size is among the VRPs served, and every BGPsec assertion among the router keys, whatever the downloaded file, the filters and the clock.", "quantifier": "all SLURM files, inputs and clock values", "why_tests_cant": "composition over unbounded lists", "anchors": ["cmd/stayrtr/stayrtr.go:processData", "prefixfile/slurm.go:FilterAssert"]}
{"id": "C65", "title": "Confirmed data is not dropped", "statement": "Records confirmed by a file built less than 24 hours ago are not dropped as stale; a record is only withdrawn when the current recent file does not list it (any more).", "quantifier": "all histories of refreshes and clock values", "why_tests_cant": "time and history dependent", "anchors": ["cmd/stayrtr/stayrtr.go:routineUpdate", "cmd/stayrtr/stayrtr.go:applyUpdateFromNewState"]}
{"id": "C67", "title": "Downloads in parallel are safe", "statement": "The downloads of the cache and of the SLURM file, which run in parallel, never access the shared maps of validators at the same time when one of them writes, and never block each other for good.", "quantifier": "all interleavings of downloads and all responses", "why_tests_cant": "scheduling; the Go runtime aborts the program on a concurrent map read and write", "anchors": ["utils/utils.go:FetchFile", "cmd/stayrtr/stayrtr.go:routineUpdate"]}
{"id": "C68", "title": "What is served follows the web server", "statement": "After every download that was answered, with conditional requests in use, the records served are those of the version the web server has at that moment.", "quantifier": "all histories of versions, answers, failures, SLURM files and clock values", "why_tests_cant": "composition over unbounded histories", "anchors": ["utils/utils.go:FetchFile", "cmd/stayrtr/stayrtr.go:updateFile", "cmd/stayrtr/stayrtr.go:routineUpdate", "lib/server.go:AddData"]}
{"id": "C66", "title": "The flags reach the server", "statement": "Every stayrtr flag has the effect its help text promises: nothing is sent in a version above -protocol (exactly that version with -enforce.version), End of Data carries the -rtr.* intervals, -notifications=false sends no Serial Notify, -disable.bgpsec sends no router key, -checktime=false uses files of any age, -slurm.refresh=false reads SLURM once, no more than -maxconn clients are served at once, -enable.nodelay sets TCP_NODELAY on the routers' sockets; and the process starts for every interval > 0.", "quantifier": "all flag values, all client behaviours and refresh histories", "why_tests_cant": "needs the flag values composed with every run of server and daemon; values out of range are only met in production", "anchors": ["cmd/stayrtr/stayrtr.go:run", "cmd/stayrtr/stayrtr.go:protoverToLib", "lib/server.go:NewServer"]}
{"id": "C70", "title": "rtrmon connects to the right server", "statement": "rtrmon accepts a TLS or SSH server only if it passes the validation asked for with -primary/secondary.tls.validate, .ssh.validate and .ssh.validate.key, and authenticates with the user, password (from the environment if blank) or key (likewise) named by its flags.", "quantifier": "all flag and environment values, all server keys", "why_tests_cant": "a missing check is invisible to any test with a good server", "anchors": ["cmd/rtrmon/rtrmon.go:main", "cmd/rtrmon/rtrmon.go:Start"]}
{"id": "C71", "title": "rtrdump connects to the right server", "statement": "rtrdump accepts a TLS or SSH server exactly if it passes the validation asked for, uses the user and credential named by its flags (password and key from the environment if blank), the transport named by -type, and stops on an unknown method or type.", "quantifier": "all flag and environment values, all server keys", "why_tests_cant": "quantifies over all keys and flag combinations", "anchors": ["cmd/rtrdump/rtrdump.go:main", "lib/client.go:Start"]}
{"id": "C73", "title": "RTR over SSH", "statement": "On an SSH connection RTR is served exactly once for each request for the subsystem rpki-rtr taken on a session channel, after the request has been confirmed; channels of other types are rejected; any other request ends the connection; every global request that wants a reply gets one; when the client ends the connection the server closes it after finitely many steps.", "quantifier": "all interleavings of global requests, channels, channel requests, closes and server steps", "why_tests_cant": "unbounded interleavings", "anchors": ["lib/server.go:acceptClientSSH"]}
{"id": "C74", "title": "Every client gets its turn", "statement": "Every connection that arrives is taken, in order of arrival, after finitely many turns of the accept loop, whatever other clients do.", "quantifier": "all schedules of arrivals and handshakes, TCP, TLS and SSH", "why_tests_cant": "liveness under adversarial clients", "anchors": ["lib/server.go:loopTCP", "lib/server.go:acceptClientSSH", "lib/server.go:acceptClientTCP"]}
{"id": "C79", "title": "Chained servers", "statement": "A second stayrtr that is given the file rtrdump wrote from a first one, or the JSON document the first exports over HTTP, serves the same records as the first (router keys as far as RTR carries them).", "quantifier": "all histories of the first server, all flags of the second", "why_tests_cant": "composition of three programs over unbounded histories", "anchors": ["cmd/rtrdump/rtrdump.go:main", "cmd/stayrtr/stayrtr.go:exporter", "cmd/stayrtr/stayrtr.go:updateFromNewState"]}
{"id": "C69", "title": "rtrmon's totals", "statement": "The gauge rpki_vrps of type total and the member count of diff.json are the number of objects the source currently has; the gauge of the grace period is the number of objects that have vanished and are still kept.", "quantifier": "all sources, all histories, all schedules of rtrmon's goroutines", "why_tests_cant": "unbounded histories and schedules", "anchors": ["cmd/rtrmon/rtrmon.go:Compare", "cmd/rtrmon/rtrmon.go:GetData", "cmd/rtrmon/rtrmon.go:BuildNewVrpMap"]}
{"id": "C72", "title": "diff.json between comparisons", "statement": "Until the next comparison diff.json gives the same answer: same objects, same times, same visibility, same metadata.", "quantifier": "all schedules without a publication", "why_tests_cant": "the lists share pointers with maps another goroutine works on", "anchors": ["cmd/rtrmon/rtrmon.go:ServeDiff", "cmd/rtrmon/rtrmon.go:BuildNewVrpMap", "cmd/rtrmon/rtrmon.go:Diff"]}
{"id": "C76", "title": "rtrmon keeps running", "statement": "rtrmon survives whatever its sources do - files that cannot be fetched or read, servers that cannot be reached, close the connection, send errors or garbage - and tries again after the interval.", "quantifier": "all responses of files and servers", "why_tests_cant": "failures in production, any order", "anchors": ["cmd/rtrmon/rtrmon.go:Start", "cmd/rtrmon/rtrmon.go:HandlePDU", "lib/client.go:StartRW"]}
{"id": "C81", "title": "The report follows the sources", "statement": "Whenever nothing is under way, diff.json and the difference gauges are the differences of what the two sources have told; before the first delivery there is none; and rtrmon always gets there, without deadlock.", "quantifier": "all sources whose router key identifiers have no - or /, all schedules of the two clients and the comparator", "why_tests_cant": "interleavings of three goroutines over shared maps", "anchors": ["cmd/rtrmon/rtrmon.go:Compare", "cmd/rtrmon/rtrmon.go:Start", "cmd/rtrmon/rtrmon.go:HandlePDU", "cmd/rtrmon/rtrmon.go:Diff", "cmd/rtrmon/rtrmon.go:ServeDiff"]}
{"id": "C82", "title": "Metadata and data belong together", "statement": "The serial, session, intervals and time shown for a source in diff.json and the gauges are those under which the source delivered the data that was compared.", "quantifier": "all schedules, all PDU sequences", "why_tests_cant": "needs a comparison between two critical sections", "anchors": ["cmd/rtrmon/rtrmon.go:GetData", "cmd/rtrmon/rtrmon.go:HandlePDU", "cmd/rtrmon/rtrmon.go:Compare"]}
{"id": "C80", "title": "The gauges show what is served", "statement": "rtr_serial, rpki_vrps, rpki_objects and the count in the metadata of the export agree with what is served to routers at any time: serial, number of distinct VRPs per family, number of entries the files list after SLURM, number of router keys.", "quantifier": "all histories of refreshes, all files and SLURM files, all flags", "why_tests_cant": "unbounded histories; gauges and served data are set in different places", "anchors": ["cmd/stayrtr/stayrtr.go:applyUpdateFromNewState", "cmd/stayrtr/stayrtr.go:UpdateMetrics", "cmd/stayrtr/stayrtr.go:routineUpdate"]}
{"id": "C83", "title": "Where a file comes from", "statement": "A location that begins with http:// or https:// is fetched over HTTP only, every other one is read from disk only; a complete new response is exactly the content, an error status or a short body is an error, and reading a file never depends on earlier fetches.", "quantifier": "all locations, all responses, all disks, all histories", "why_tests_cant": "unbounded inputs and responses", "anchors": ["utils/utils.go:FetchFile"]}
{"id": "C84", "title": "rtrdump asks what its flags say", "statement": "The query rtrdump sends is the one its flags -serial, -serial.value, -session.id and -rtr.version describe, or rtrdump refuses them.", "quantifier": "all values of the flags", "why_tests_cant": "unbounded values, truncation", "anchors": ["cmd/rtrdump/rtrdump.go:main", "cmd/rtrdump/rtrdump.go:Session"]}
{"id": "C78", "title": "Metrics about clients", "statement": "rtr_clients is, per local address, the number of clients being served there; rtr_pdus is, per type, the number of PDUs clients have sent.", "quantifier": "all schedules of all goroutines, all input, TCP, TLS and SSH", "why_tests_cant": "needs all interleavings; gauge and client list are updated in different critical sections", "anchors": ["cmd/stayrtr/stayrtr.go:ClientConnected", "cmd/stayrtr/stayrtr.go:ClientDisconnected", "cmd/stayrtr/stayrtr.go:HandlePDU", "lib/structs.go:TypeToString"]}
{"id": "C85", "title": "Queries go out in order", "statement": "Whatever a client session is asked to send, by whichever goroutines, is written to the connection in the order it was queued, once and unaltered while the connection lasts; along the connection the protocol version never goes back up.", "quantifier": "all interleavings of reader, sender and callers of SendPDU, all handlers and peers", "why_tests_cant": "needs all interleavings of unsynchronised accesses", "anchors": ["lib/client.go:SendPDU", "lib/client.go:SendRawPDU", "lib/client.go:sendLoop", "cmd/rtrmon/rtrmon.go:continuousRTR"]}
{"id": "C86", "title": "A client session ends cleanly", "statement": "However its goroutines interleave, a client session does with the bytes of the peer exactly what its reader does alone, StartRW returns, and when it has returned the sender and every goroutine inside SendPDU end too.", "quantifier": "all interleavings, all handlers and byte streams", "why_tests_cant": "needs all interleavings; goroutines left behind are not visible to tests", "anchors": ["lib/client.go:StartRW", "lib/client.go:Disconnect", "lib/client.go:sendLoop", "lib/client.go:SendRawPDU"]}
{"id": "C75", "title": "Changing the connection limit", "statement": "After SetMaxConnections(m) with m > 0 has returned, at most m clients are connected, and at most m as long as the limit stays; the ones disconnected are those connected longest and no more than necessary; with m = 0 (no limit) nobody is disconnected.", "quantifier": "all numbers of clients, limits and interleavings of the call with clients coming and going", "why_tests_cant": "scheduling: the counter, the list and the connections are changed by several goroutines", "anchors": ["lib/server.go:SetMaxConnections", "lib/server.go:Disconnect", "lib/server.go:ClientDisconnected", "lib/server.go:Start", "lib/server.go:loopTCP"]}
{"id": "C77", "title": "How often the daemon refreshes", "statement": "A refresh begins -refresh seconds after the previous one began, or as soon as that one has ended if it takes longer; sooner only when asked by SIGHUP or a trigger; after that the interval starts afresh.", "quantifier": "all intervals, durations of refreshes and times of triggers", "why_tests_cant": "unbounded executions in time; durations of downloads and the state of the ticker", "anchors": ["cmd/stayrtr/stayrtr.go:routineUpdate", "cmd/stayrtr/stayrtr.go:updateDelay"]}
{"id": "C87", "title": "The Serial Queries of rtrmon", "statement": "While an RTR session of rtrmon is up its Serial Queries go to that session and carry the session id and serial of the last response completed in it; none is sent before the first response is complete; none with -*.rtr.break; the poller of a session that is over stops.", "quantifier": "all interleavings of sessions, PDUs and pollers", "why_tests_cant": "scheduling: the pollers share fields with the goroutine of the session", "anchors": ["cmd/rtrmon/rtrmon.go:continuousRTR", "cmd/rtrmon/rtrmon.go:Start", "cmd/rtrmon/rtrmon.go:HandlePDU", "cmd/rtrmon/rtrmon.go:ClientDisconnected"]}
{"id": "C88", "title": "A file cut off is not a shorter file", "statement": "If a download or a file ends early, the part that is there is either refused or read exactly as the whole; so whatever parts of files arrive, what is served is the content of one whole file with one whole SLURM file.", "quantifier": "all files, all cut positions, all histories of refreshes", "why_tests_cant": "every prefix of every file", "anchors": ["cmd/stayrtr/stayrtr.go:decodeJSON", "prefixfile/slurm.go:DecodeJSONSlurm", "cmd/stayrtr/stayrtr.go:updateFile"]}
{"id": "C89", "title": "Which JSON is accepted", "statement": "A file is accepted as JSON exactly if it is a JSON text (RFC 8259), and is then read as its value.", "quantifier": "all byte strings", "why_tests_cant": "all byte strings", "anchors": ["cmd/stayrtr/stayrtr.go:decodeJSON", "prefixfile/slurm.go:DecodeJSONSlurm"]}
{"id": "C90", "title": "Export and dump as texts", "statement": "The JSON text a server exports, and the one rtrdump writes, are read by another server as the records they were made from, whatever bytes trust anchor names, keys and prefixes have.", "quantifier": "all histories of the first server, all streams rtrdump may receive", "why_tests_cant": "all contents, quoting of all bytes", "anchors": ["cmd/stayrtr/stayrtr.go:exporter", "cmd/rtrdump/rtrdump.go:main", "cmd/stayrtr/stayrtr.go:decodeJSON", "prefixfile/prefixfile.go:VRPJson", "prefixfile/prefixfile.go:RPKIList"]}
{"id": "C91", "title": "SLURM files of RFC 8416", "statement": "Every SLURM file RFC 8416 describes is accepted, and its filters and assertions are those it lists.", "quantifier": "all SLURM files", "why_tests_cant": "all files, all keys", "anchors": ["prefixfile/slurm.go:DecodeJSONSlurm", "prefixfile/slurm.go:SlurmBGPsecFilter", "prefixfile/slurm.go:SlurmBGPsecAssertion"]}
{"id": "C92", "title": "Order and unknown members do not matter", "statement": "Two JSON files that differ only in the order of object members and in members of other names mean the same records.", "quantifier": "all JSON values and reorderings", "why_tests_cant": "all permutations at all depths", "anchors": ["prefixfile/prefixfile.go:RPKIList", "prefixfile/prefixfile.go:VRPJson", "prefixfile/slurm.go:SlurmConfig"]}
{"id": "C93", "title": "Build times are read as RFC 3339 says", "statement": "The buildtime of a file is read as the instant that RFC 3339 gives it and texts that are not RFC 3339 are refused; with -checktime, what is newly published comes from a file built at most 24 hours ago by that reading.", "quantifier": "all texts, all calendar days, all histories of refreshes", "why_tests_cant": "all dates, leap years, offsets and fractions", "anchors": ["cmd/stayrtr/stayrtr.go:updateFromNewState", "cmd/stayrtr/stayrtr.go:reloadFromCurrentState", "prefixfile/prefixfile.go:GetBuildTime"]}
{"id": "C94", "title": "If-Modified-Since repeats the server's date", "statement": "With -last.modified, after a response with a Last-Modified date in the form of RFC 9110 the following requests for that file carry exactly that text in If-Modified-Since until the server sends a changed file; a date in another form comes back as the RFC 9110 date of the same second; without an understandable date no header is sent.", "quantifier": "all dates, all sequences of downloads of all files", "why_tests_cant": "all instants, weekdays and interleavings of downloads", "anchors": ["utils/utils.go:FetchFile"]}
{"id": "C95", "title": "A router that polls stays in step", "statement": "Whatever sequence of record sets is fed to the server, with polls by a router and new connections in between, every poll is answered in a way a router that follows RFC 8210 strictly can digest (no duplicate announcement, no withdrawal of an unknown record), and afterwards the router holds exactly the records fed in last that its version and connection may be sent.", "quantifier": "all sequences of updates, polls and reconnections, versions 0 and 1, all transports, all values of KeepDifference", "why_tests_cant": "unbounded interleavings of updates and polls; the state of the router depends on the whole conversation", "anchors": ["lib/server.go:AddData", "lib/server.go:GetSDsSerialDiff", "lib/server.go:RequestNewVersion", "lib/server.go:RequestCache", "lib/server.go:SendSDs"]}
{"id": "C96", "title": "From the file to the router", "statement": "With a daemon that refreshes and a router that polls it, after each poll the router holds exactly the records that the text of the last readable file lists as valid and not expired (after the SLURM file), as far as its protocol version and connection may carry them - however the JSON is written.", "quantifier": "all histories of files, SLURM files, polls and reconnections, all JSON texts, versions 0 and 1, all transports", "why_tests_cant": "the whole path from bytes of a file to the state of the router, over unbounded histories", "anchors": ["cmd/stayrtr/stayrtr.go:updateFile", "cmd/stayrtr/stayrtr.go:updateFromNewState", "cmd/stayrtr/stayrtr.go:processData", "lib/server.go:AddData", "lib/server.go:RequestNewVersion", "lib/server.go:RequestCache", "prefixfile/prefixfile.go:RPKIList"]}
{"id": "C97", "title": "Updates do not disturb routes", "statement": "When a router polls and applies the answer record by record, a BGP route that is valid (invalid, not found) by the origin validation of RFC 6811 both before and after the update is so at every point in between.", "quantifier": "all histories of updates and polls, all routes, all points of the response", "why_tests_cant": "all routes and all intermediate states of the router", "anchors": ["lib/server.go:ComputeDiff", "lib/server.go:AddData", "lib/server.go:AddSDsDiff", "lib/server.go:ApplyDiff", "lib/server.go:SendSDs"]}
{"id": "C98", "title": "Loading does not make routes invalid", "statement": "While a router that starts from nothing applies the answer to its Reset Query record by record, a BGP route that is valid in the end is at no point invalid (the purpose of the order of VRPs in draft-ietf-sidrops-8210bis section 11).", "quantifier": "all input lists, all routes, all points of the response", "why_tests_cant": "all routes and all intermediate states of the router", "anchors": ["cmd/stayrtr/stayrtr.go:processData", "lib/server.go:AddData", "lib/server.go:RequestCache", "lib/server.go:SendSDs"]}
{"id": "C99", "title": "diff.json says what was found", "statement": "What rtrmon serves under diff.json is at every moment a JSON text (RFC 8259). When nothing is under way, its arrays show each object (VRP or router key) that is visible at one source and not at the other exactly once, with its times, and nothing else, whatever the order in which maps are walked; the other members tell the address, serial, session, intervals, number of objects and time of each source. Two different reports never give the same text.", "quantifier": "all schedules, all file texts and PDU bytes, all iteration orders", "why_tests_cant": "all texts, all interleavings, all map orders", "anchors": ["cmd/rtrmon/rtrmon.go:ServeDiff", "cmd/rtrmon/rtrmon.go:VRPArray", "cmd/rtrmon/rtrmon.go:GetData", "cmd/rtrmon/rtrmon.go:Compare"]}
{"id": "C100", "title": "Sorting with a comparison that is no strict order", "statement": "stayrtr gives sort.Slice a comparison that calls equal elements less than each other, which its documentation does not allow. All the same, after loading a file the VRPs are a permutation of those that were read (none lost, none doubled) and every VRP is ahead of all later ones: longer prefixes first, then greater maximal lengths, then lower addresses; the thresholds of rtrmon are in ascending order. This holds whichever pivots and pseudo-random swaps the sorting makes.", "quantifier": "all lists of VRPs and of thresholds of any length, all pivot choices and hints, all swaps within the part sorted; for every comparison between < and <= of a preorder", "why_tests_cant": "Whether quicksort variants survive an invalid comparison depends on sizes, duplicates and pivots: switches to heapsort, partial insertion and equal partitioning occur only for particular large inputs.", "anchors": ["cmd/stayrtr/stayrtr.go:269-298", "cmd/rtrmon/rtrmon.go:178-198"]}
{"id": "C101", "title": "An update in the middle of an answer does no harm", "statement": "Updates may fall between the moment a handler reads the serial and the moment it reads the data. A router whose every query is taken up at most one change after its last one is nevertheless never sent an announcement of what it has or a withdrawal of what it has not, and after every answer other than a Cache Reset holds exactly the newest records.", "quantifier": "all sequences of updates and polls, updates before, between and after the two reads of each exchange, all values of KeepDifference", "why_tests_cant": "scheduling; the harm shows only at a later poll", "anchors": ["lib/server.go:RequestCache", "lib/server.go:RequestNewVersion", "lib/server.go:GetCurrentSerial", "lib/server.go:GetSDsSerialDiff", "lib/server.go:AddData"]}
{"id": "C102", "title": "Every form of HTTP date is understood", "statement": "RFC 9110 knows three forms of a date and asks recipients to accept all of them. Whichever form a server writes Last-Modified in (the one with a two-digit year for 1969 to 2068), the instant it stands for is what the next request for that file names in If-Modified-Since, in the preferred form.", "quantifier": "all instants, all texts of the three grammars, all local time zones of the machine that do not redefine GMT, all sequences of downloads in between", "why_tests_cant": "the older forms are served by few servers and none of the tests; the calendar is unbounded", "anchors": ["utils/utils.go:FetchFile"]}
{"id": "C103", "title": "Shared data is locked and nobody waits for ever", "statement": "Whatever the goroutines of stayrtr (routers, accept loops, refreshes, parallel downloads, HTTP handlers) and of rtrmon do at the same time, two of them never access the same field at once while one writes; no lock is left held, unlocked twice or waited for in a circle, so that every call returns; and when all have ended the counter of connections says how many are open.", "quantifier": "all numbers of goroutines, all sequences of calls each may make, all interleavings of the single accesses and lock operations", "why_tests_cant": "a race needs two goroutines within nanoseconds of each other; the tests start one", "anchors": ["lib/server.go:AddSDsDiff", "lib/server.go:ClientConnected", "lib/server.go:acceptClientSSH", "lib/server.go:NotifyClientsLatest", "cmd/stayrtr/stayrtr.go:updateSlurm", "cmd/stayrtr/stayrtr.go:exporter", "utils/utils.go:FetchFile", "cmd/rtrmon/rtrmon.go:HandlePDU", "cmd/rtrmon/rtrmon.go:Compare"]}
{"id": "C104", "title": "Records are handed over by value", "statement": "The records of the cache are pointers, and byte slices of keys are shared memory. Nevertheless a record once handed out (by GetCurrentSDs, GetSDsSerialDiff or in an answer that waits to be sent) never changes, whatever updates follow and whatever callers of AddData do to the records and byte slices they passed; and the cache is what the values were at the time of each AddData. It is assumed that those who are handed records only read them, as all callers in the repository do.", "quantifier": "all sequences of updates, answers and writes of callers to their own records and slices", "why_tests_cant": "aliasing shows only when somebody writes to shared memory between two reads; no test does", "anchors": ["lib/server.go:Copy", "lib/server.go:SetFlag", "lib/server.go:ComputeDiff", "lib/server.go:ApplyDiff", "lib/server.go:AddData", "lib/server.go:AddSDsDiff", "lib/server.go:SendSDs", "lib/server.go:SendData"]}
{"id": "C105", "title": "Metrics about downloads and times", "statement": "The metrics of stayrtr show what their descriptions promise: rpki_refresh the time of the last successful request for a URL, refresh_requests_total the number of answers to requests by status code, rpki_change the time of the last change of what is served.", "quantifier": "all sequences of downloads with any outcome (no answer, any status, any ETag, bodies cut off, files on disk), all histories of refreshes", "why_tests_cant": "the metrics are registered and exist, so a test that only scrapes them passes; that they are never set is a statement about all executions", "anchors": ["cmd/stayrtr/stayrtr.go:updateFile", "cmd/stayrtr/stayrtr.go:updateSlurm", "cmd/stayrtr/stayrtr.go:UpdateMetrics", "utils/utils.go:FetchFile"]}
{"id": "C106", "title": "Each page is at its path", "statement": "Whatever paths the flags give, the HTTP server of stayrtr and of rtrmon comes up, and a request gets the page whose path it names: the export, the update endpoint, the metrics, diff.json; a path ending in a slash also stands for everything below it, the longest such path wins, paths not in normal form are redirected, and any other path gets 404 (in rtrmon the index page), for every method and host.", "quantifier": "all flag values; all requests (method, host, path)", "why_tests_cant": "which pattern wins is decided over all pairs of configured paths and request paths; tests request a few default paths", "anchors": ["cmd/stayrtr/stayrtr.go:172-175", "cmd/stayrtr/stayrtr.go:798-806", "cmd/rtrmon/rtrmon.go:1006-1012"]}
{"id": "C107", "title": "The intervals fit together", "statement": "A router that keeps to RFC 8210 section 6 - it polls at least once in every Refresh Interval it is told, and forgets its data when the Expire Interval has passed since the last End of Data - goes at every moment by exactly the records served at its last poll, as long as there is something to serve, whatever the flags; and when there is nothing left to serve, or the daemon drops what is stale, it goes by nothing at most one Expire Interval later. No record stays with it longer than that after it was last served.", "quantifier": "all flags, all sequences of updates (and of refreshes of the daemon), polls and reconnections at arbitrary times, versions 0 and 1, all transports", "why_tests_cant": "the effect comes out of a server's answers over hours of a router's clock; no test has a router, let alone one that waits for its data to expire", "anchors": ["lib/server.go:NewServer", "cmd/stayrtr/stayrtr.go:run", "lib/server.go:SendSDs", "lib/server.go:acceptClientTCP"]}
{"id": "C108", "title": "Prefixes as texts", "statement": "An entry's prefix is read if and only if it is the text of a prefix - dotted decimal or colon-separated hexadecimal with at most one :: (the last 32 bits possibly dotted), a slash and a length without sign or leading zero that is not above the width - and it is read as the prefix that text denotes. Every text denotes at most one prefix, and two files that differ only in how the prefixes are spelt (capitals, leading zeros of a group, where the :: stands) give the same records.", "quantifier": "all byte strings; all lists of entries", "why_tests_cant": "infinitely many texts and spellings; tests try some that are usual", "anchors": ["cmd/stayrtr/stayrtr.go:processData", "prefixfile/prefixfile.go:GetPrefix2"]}
{"id": "C109", "title": "One authorization, once", "statement": "Whatever the file, the server does not serve two records that authorize the same AS for the same addresses with the same maximum length, and an update does not withdraw an authorization which the new file still lists.", "quantifier": "all files, all histories", "why_tests_cant": "pairs of entries that denote the same range are not in the fixtures", "anchors": ["cmd/stayrtr/stayrtr.go:processData", "prefixfile/prefixfile.go:GetPrefix2", "lib/server.go:ApplyDiff"]}
{"id": "C110", "title": "Everything sent is valid", "statement": "Whatever the flags, the files, the SLURM files, the clock and the bytes from routers, what a router is sent is a sequence of PDUs that RFC 8210 (RFC 6810 for version 0) lets a cache send: version 0 or 1, the length field is the length, reserved fields are zero, flags are 0 or 1, a prefix is not longer than its maximum length and that not longer than an address, End of Data has the length of its version, router keys only in version 1, Error Reports carry a known code and a text. Only a PDU during which the connection broke may lack its end.", "quantifier": "all flags, files, histories, queries and interleavings; public keys below 4 GB", "why_tests_cant": "every field of every PDU under every input", "anchors": ["lib/structs.go:Write", "lib/server.go:SendSDs", "lib/server.go:SendPDU", "cmd/stayrtr/stayrtr.go:processData"]}
{"id": "C111", "title": "Answers are complete", "statement": "What is sent on a connection, apart from Serial Notifies, is a sequence of answers: a Cache Response followed by data and an End of Data of the same session, all in one version; a Cache Reset; or an Error Report. No answer is cut off, mixed with another one or left without its End of Data, unless the connection ends.", "quantifier": "all queries, caches, configurations and interleavings", "why_tests_cant": "interleavings of reader, sender and notifier", "anchors": ["lib/server.go:RequestCache", "lib/server.go:RequestNewVersion", "lib/server.go:SendSDs", "lib/server.go:SendRawPDU"]}
{"id": "C112", "title": "At most one notification per minute", "statement": "As RFC 8210 section 5.2 demands, routers are sent no more than one Serial Notify per minute, however often the file changes and whatever the operator does.", "quantifier": "all values of -refresh, files, durations of refreshes, signals and calls of the update handler", "why_tests_cant": "time, and combinations of timer, signals and slow downloads", "anchors": ["cmd/stayrtr/stayrtr.go:routineUpdate", "cmd/stayrtr/stayrtr.go:updateDelay", "cmd/stayrtr/stayrtr.go:applyUpdateFromNewState", "lib/server.go:NotifyClientsLatest"]}
{"id": "C113", "title": "A query gets its answer", "statement": "A connected router that sends a Reset Query, or a Serial Query with the current session, in a version that fits and reads what it is sent, is sent the whole answer (all data, the changes since its serial number, a Cache Reset, or the report that there is no data), however the goroutines of the server are interleaved with those of other connections, with updates and with notifications, as long as the reader and the sender of the connection keep getting turns.", "quantifier": "all configurations, caches, states of the server, queries and fair interleavings", "why_tests_cant": "liveness: all infinite fair schedules, full channels, notifications in between", "anchors": ["lib/server.go:Start", "lib/server.go:sendLoop", "lib/server.go:SendPDU", "lib/server.go:RequestCache", "lib/server.go:RequestNewVersion", "lib/server.go:NotifyClientsLatest"]}
{"id": "C114", "title": "A notification reaches every router", "statement": "Once a new serial number is notified, every router listed is sent exactly one Serial Notify with that number, if the routers stay connected and read what they are sent and the goroutines go on getting turns, even if some of them are being answered or their channels are full at first; a router that was idle gets it in its own version and with the session of that version; nothing of the answers in progress is lost.", "quantifier": "all configurations, states of the server, sets of routers and fair interleavings", "why_tests_cant": "liveness: a blocking send per client, full channels, answers in progress, connections coming and going", "anchors": ["lib/server.go:NotifyClientsLatest", "lib/server.go:Notify", "lib/server.go:sendLoop", "lib/server.go:SendPDU"]}
{"id": "C115", "title": "Connections do not influence one another", "statement": "What is put on a connection, apart from Serial Notifies, and what becomes of its state, depends only on the bytes that came in on it and on the cache at the moments they came: it is what the read loop gives when it handles them one after the other with no other connection there, whatever happens on the other connections and however the goroutines are interleaved; two connections of the same kind with the same input get the same answers.", "quantifier": "all configurations, numbers of connections, inputs on all of them and interleavings", "why_tests_cant": "non-interference relates all pairs of executions", "anchors": ["lib/server.go:Start", "lib/server.go:sendLoop", "lib/server.go:HandlePDU", "lib/server.go:SendRawPDU"]}
{"id": "C116", "title": "A router of a busy server stays in step", "statement": "A router that follows RFC 8210 and polls over one connection after the other, while the server has any number of other connections, sends notifications and is updated, has been able to follow every answer once all that was queued for it has been written, and then holds exactly the records fed in last.", "quantifier": "all histories of updates, polls and reconnections, sets of other connections, inputs on them and interleavings", "why_tests_cant": "composition of history, protocol state, framing and scheduling; unbounded executions", "anchors": ["lib/server.go:Start", "lib/server.go:HandlePDU", "lib/server.go:RequestNewVersion"]}
{"id": "C117", "title": "Routes are judged as file and local exceptions say", "statement": "A router that connects after any number of refreshes and asks for everything gets the valid, unexpired records of the last readable file that no filter of the last readable SLURM file matches, plus the assertions of the latter, as far as its connection may carry them. So by RFC 6811 it finds every BGP route valid, invalid or unknown exactly as file and local exceptions (RFC 8416) say: a route with a local assertion is valid, one whose covering records are all filtered is unknown.", "quantifier": "all histories of files and SLURM files (filters whose prefixes can be read, maximum lengths below 256, files not too old, no router key listed twice, no hash collisions), all JSON texts, all routes, versions 0 and 1, all transports", "why_tests_cant": "the path from the bytes of two files to the verdict on any route", "anchors": ["cmd/stayrtr/stayrtr.go:processData", "cmd/stayrtr/stayrtr.go:updateFromNewState", "prefixfile/slurm.go:FilterAssert", "prefixfile/slurm.go:FilterOnVRPs", "prefixfile/slurm.go:AssertVRPs", "lib/server.go:AddData", "lib/server.go:RequestCache", "lib/server.go:SendSDs"]}
{"id": "C118", "title": "A change reaches every router", "statement": "The data changes and NotifyClientsLatest is called. As long as the routers listed stay connected and read, and the goroutines get turns, there is a moment when every router that had polled and been answered has been sent a Serial Notify in its version and session with the new serial number. Each may wait as long as it likes; when it then sends a Serial Query with what it has, it gets, whatever else happens on the server, an answer after which it has exactly the new records that may be sent to it. One question is enough.", "quantifier": "all servers, schedules with fair turns, other connections, earlier lives of the routers (polls within one change, or after more changes than are kept), new lists (not empty), versions and transports; the serial number does not wrap with this change", "why_tests_cant": "convergence of all routers under every interleaving of notifier, read loops and senders", "anchors": ["lib/server.go:NotifyClientsLatest", "lib/server.go:Notify", "lib/server.go:AddData", "lib/server.go:RequestNewVersion", "lib/server.go:GetSDsSerialDiff", "lib/server.go:sendLoop"]}
{"id": "C119", "title": "A new file reaches every router", "statement": "The daemon refreshes and thereby notifies. As long as the routers listed stay connected and read, and the goroutines get turns, there is a moment when every router that had polled after each refresh so far has been sent a Serial Notify with the new serial number. When it then sends a Serial Query, however late and whatever else happens on the server, it ends up with exactly the records it may be sent of what is due: the records of the last readable file that no filter of the last readable SLURM file matches, and the assertions of the latter. So it judges every route as valid, invalid or not found as these say.", "quantifier": "all histories of refreshes and contents of files and SLURM files, schedules with fair turns, other connections, earlier lives of the routers, versions and transports; there is always something to serve, no router key is listed twice, the serial number does not wrap with this refresh", "why_tests_cant": "the chain from a file on disk through parsing, local exceptions, cache, notification and conversation to the tables of all routers, under every interleaving", "anchors": ["cmd/stayrtr/stayrtr.go:updateFromNewState", "cmd/stayrtr/stayrtr.go:routineUpdate", "lib/server.go:AddData", "lib/server.go:NotifyClientsLatest", "lib/server.go:RequestNewVersion", "lib/server.go:sendLoop"]}
{"id": "C120", "title": "The gauges of rtrmon describe the sources their labels name", "statement": "When nothing is under way, every series on rtrmon's metrics page says what its labels promise: rpki_vrps the number of objects of the source (type total) and of those the other source does not have (diff), vrp_diff for each threshold the number of objects seen on the left-hand source that long and not on the right-hand one, rpki_grace_period_vrps the objects of that URL that are gone but kept, rtr_serial and rtr_session what the source last announced, update the time of its last complete set, rtr_state 1 exactly when the last that happened was a connect. There is no other series and none appears twice; before the first comparison there are no counts.", "quantifier": "all configurations, URLs, sequences of downloads, PDUs, connects and disconnects, interleavings of the goroutines, clocks", "why_tests_cant": "the page is assembled from global gauges by several goroutines, keyed by labels that may coincide", "anchors": ["cmd/rtrmon/rtrmon.go:Compare", "cmd/rtrmon/rtrmon.go:Start", "cmd/rtrmon/rtrmon.go:ClientConnected", "cmd/rtrmon/rtrmon.go:ClientDisconnected", "cmd/rtrmon/rtrmon.go:BuildNewVrpMap"]}
{"id": "C121", "title": "A router that is gone holds nothing up", "statement": "Once a router's connection has ended, nothing in the server waits for it: a notification that is under way goes on to the routers after it, and every later publication is announced to the routers that are still there.", "quantifier": "all configurations, numbers of routers, states of their channels, moments at which a connection ends, interleavings of the goroutines", "why_tests_cant": "the notifier has to be waiting for the full channel of one router at the moment that router leaves; a test would need more than 256 unread notifications and then a close between two steps of three goroutines", "anchors": ["lib/server.go:631-637", "lib/server.go:744-755", "lib/server.go:816-822", "lib/server.go:1011-1032", "cmd/stayrtr/stayrtr.go:427-431"]}
{"id": "C122", "title": "A router that does not read costs a bounded amount of memory", "statement": "Whatever routers send, in whatever order and however slowly they read, the PDUs the server has made for one router and not yet written never exceed a bound fixed by the number of diffs kept and the size of the largest set loaded: at most 256 on its channel, one being written, and one answer with at most three error reports before it; and no answer is longer than twice the number of kept diffs times the largest set, however many sets are loaded.", "quantifier": "all configurations, histories of sets, bytes sent by routers, numbers of queries in flight, interleavings of the goroutines", "why_tests_cant": "needs routers that send queries and never read while sets are loaded for ever; a test sees one such state, the bound is over all of them", "anchors": ["lib/server.go:371-392", "lib/server.go:646", "lib/server.go:744-813", "lib/server.go:917-933", "lib/server.go:1011-1013"]}
{"id": "C123", "title": "A server that serves its file differs from it in nothing", "statement": "When rtrmon compares a stayrtr server with the very file that server loaded last, and has seen the server's latest serial, it reports no difference: nothing only in the file, nothing only on the server.", "quantifier": "all files, loading times, histories of loads and polls, configurations of the server, earlier rounds of the file source, grace periods", "why_tests_cant": "two programs with separate readers of the same file have to agree on every entry; an example file says nothing about the entries it does not have", "anchors": ["cmd/rtrmon/rtrmon.go:BuildNewVrpMap", "cmd/rtrmon/rtrmon.go:Compare", "cmd/rtrmon/rtrmon.go:HandlePDU", "cmd/stayrtr/stayrtr.go:processData", "lib/server.go:SendSDs"]}
{"id": "C124", "title": "A server differs from its own export in nothing", "statement": "When rtrmon compares the RTR port of a stayrtr server with the list that same server exports over HTTP, and has seen the server's latest serial, it reports no difference, whatever files and SLURM files the server has loaded.", "quantifier": "all histories of refreshes (files, SLURM files, times, failures) and polls in between, configurations of the daemon and of the server, earlier rounds of the HTTP source, grace periods", "why_tests_cant": "the export is made in one program and read in another, and the two ports of the server are filled at different places; agreement depends on every entry and on the whole history", "anchors": ["cmd/stayrtr/stayrtr.go:applyUpdateFromNewState", "cmd/stayrtr/stayrtr.go:exporter", "cmd/rtrmon/rtrmon.go:BuildNewVrpMap", "cmd/rtrmon/rtrmon.go:Compare", "cmd/rtrmon/rtrmon.go:HandlePDU", "lib/server.go:SendSDs"]}
{"id": "C125", "title": "A restarted server does not mislead its routers", "statement": "The server is stopped and started again, with any configuration and any data. A router that was in step with the old run and still has its session and serial connects again and polls as RFC 8210 says (after an error it forgets the session and begins with a Reset Query): it ends up with exactly what the new run serves, and stays in step while it polls on.", "quantifier": "all pairs of runs, session numbers, configurations, histories of sets in both runs, versions, transports and moments of the restart", "why_tests_cant": "depends on two random draws and on two whole histories; a test restarts once and has one chance in 65536 of meeting the harmful draw", "anchors": ["lib/server.go:17-19", "lib/server.go:88-121", "lib/server.go:172-176", "lib/server.go:309-323"]}
{"id": "C126", "title": "A one-off comparison is written and ends", "statement": "Started with -oneoff, rtrmon writes the comparison as JSON and exits as soon as a result of each of the two sources has been compared.", "quantifier": "all configurations, sources, sequences of downloads and PDUs, interleavings of the goroutines, clocks", "why_tests_cant": "whether the process ends depends on three goroutines and an unbuffered channel; that it has not ended yet is no test result", "anchors": ["cmd/rtrmon/rtrmon.go:49", "cmd/rtrmon/rtrmon.go:642", "cmd/rtrmon/rtrmon.go:882-885", "cmd/rtrmon/rtrmon.go:Compare", "cmd/rtrmon/rtrmon.go:Start", "cmd/rtrmon/rtrmon.go:main"]}
{"id": "C127", "title": "A clean start", "statement": "stayrtr takes connections from routers only after the first download and the SLURM file have been tried and what they gave has been published, and only on the addresses given, each with its transport; when everything the flags ask for can be had exactly those listeners end up open and the process runs on; when an address cannot be bound, a certificate or key cannot be read or the interval is unusable, the process ends with an error, and without having served anybody.", "quantifier": "all interleavings of the main goroutine, the two downloads, the HTTP server, the listeners and connecting routers; all combinations of flags and failures", "why_tests_cant": "needs all interleavings of the goroutines that start up, and failures at each", "anchors": ["cmd/stayrtr/stayrtr.go:run", "cmd/stayrtr/stayrtr.go:serveHTTP", "lib/server.go:Start", "lib/server.go:StartTLS", "lib/server.go:StartSSH", "lib/server.go:loopTCP"]}
{"id": "C128", "title": "Descriptors suffice", "statement": "Clients and refreshes do not take the file descriptors from one another: a refresh can open its file or connection however many clients have connected, clients can connect however many refreshes there have been, and a refresh leaves no descriptor open behind it.", "quantifier": "all interleavings of connecting and leaving clients, turns of the accept loop, refreshes and runs of the garbage collector; all limits on descriptors and all flags", "why_tests_cant": "needs unbounded numbers of clients and refreshes, and control over the garbage collector and the limit of the process", "anchors": ["lib/server.go:loopTCP", "lib/server.go:acceptClientTCP", "utils/utils.go:FetchFile", "cmd/stayrtr/stayrtr.go:updateFile", "cmd/stayrtr/stayrtr.go:run"]}
{"id": "C129", "title": "A silent web server does not stop the refreshes", "statement": "A refresh that is due, by the interval, a SIGHUP or a request to update, begins within a bounded time, whatever the web server of an earlier refresh does or fails to do.", "quantifier": "all schedules of requests for refreshes, of the steps of the server and of its silences, and all lengths of time; http and https", "why_tests_cant": "needs a server that is silent for an unbounded time at each point of the exchange", "anchors": ["cmd/stayrtr/stayrtr.go:routineUpdate", "cmd/stayrtr/stayrtr.go:updateFile", "utils/utils.go:FetchFile"]}
