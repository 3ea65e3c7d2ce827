{
 "claims": [
  {
   "property": "C01",
   "status": "proved",
   "theorems": [
    "C01_roundtrip",
    "C01_injective"
   ],
   "note": ""
  },
  {
   "property": "C02",
   "status": "proved",
   "theorems": [
    "C02_no_crash",
    "C02_no_crash_32bit_refuted"
   ],
   "note": "64-bit int as stated; on a 32-bit int the decoder can panic (refuted separately)"
  },
  {
   "property": "C03",
   "status": "proved",
   "theorems": [
    "C03_stream",
    "C03_consumes_announced",
    "C03_prefix_rejected"
   ],
   "note": ""
  },
  {
   "property": "C04",
   "status": "proved",
   "theorems": [
    "C04_length_field"
   ],
   "note": ""
  },
  {
   "property": "C05",
   "status": "proved",
   "theorems": [
    "C05_decode_iff"
   ],
   "note": ""
  },
  {
   "property": "C06",
   "status": "proved",
   "theorems": [
    "C06_reencode"
   ],
   "note": ""
  },
  {
   "property": "C07",
   "status": "proved",
   "theorems": [
    "C07_exact"
   ],
   "note": ""
  },
  {
   "property": "C08",
   "status": "proved",
   "theorems": [
    "C08_last_set",
    "C08_no_duplicates"
   ],
   "note": ""
  },
  {
   "property": "C09",
   "status": "proved",
   "theorems": [
    "C09_merge",
    "C09_applies",
    "C09_three_diffs_refuted"
   ],
   "note": "as stated (two diffs); merging a third diff onto a merged one can lose a withdrawal, refuted separately"
  },
  {
   "property": "C10",
   "status": "partial",
   "theorems": [
    "C10_announce_refuted",
    "C10_withdraw_partial",
    "C10_announce_partial"
   ],
   "note": "REFUTED: a record withdrawn and re-announced is announced to a router that still has it. Proved: withdrawals are clean; announcements are clean exactly when that case does not occur"
  },
  {
   "property": "C11",
   "status": "proved",
   "theorems": [
    "C11_changes"
   ],
   "note": ""
  },
  {
   "property": "C12",
   "status": "partial",
   "theorems": [
    "C12_sync_refuted",
    "C12_serial_reuse_refuted",
    "C12_current_partial",
    "C12_one_behind_partial",
    "C12_history_shape",
    "C12_history_odd",
    "C12_history_even",
    "C12_behind_partial",
    "C12_behind_exact_partial",
    "C12_two_behind_partial"
   ],
   "note": "REFUTED: the history has an extra nil entry per update, and an emptied and refilled cache reuses its serial. Proved: routers up to date or one serial behind synchronise correctly for any KeepDifference; exact contents of the history; for a router any number of changes behind exactly which records it is told and for which data that is right (C12_behind_partial, C12_behind_exact_partial; two behind: nothing)"
  },
  {
   "property": "C13",
   "status": "proved",
   "theorems": [
    "C13_unknown"
   ],
   "note": ""
  },
  {
   "property": "C14",
   "status": "proved",
   "theorems": [
    "C14_serial_names_set",
    "C14_empty_refuted"
   ],
   "note": "as stated (non-empty sets); the empty set shares its serial with the next set, refuted separately"
  },
  {
   "property": "C15",
   "status": "proved",
   "theorems": [
    "C15_bounded"
   ],
   "note": ""
  },
  {
   "property": "C16",
   "status": "proved",
   "theorems": [
    "C16_keys"
   ],
   "note": ""
  },
  {
   "property": "C17",
   "status": "proved",
   "theorems": [
    "C17_serial",
    "C17_step"
   ],
   "note": ""
  },
  {
   "property": "C18",
   "status": "partial",
   "theorems": [
    "C18_refuted",
    "C18_reset_partial",
    "C18_serial_partial",
    "C18_undisturbed_partial",
    "C18_exact_partial"
   ],
   "note": "REFUTED: serial and data are read in two critical sections, an update in between gives a response of old serial and new data. Proved under every schedule: each belongs to a published state, the data's not older; consistent when the cache did not change in between; beside one updater exactly these pairs of moments occur"
  },
  {
   "property": "C19",
   "status": "proved",
   "theorems": [
    "C19_reset"
   ],
   "note": ""
  },
  {
   "property": "C20",
   "status": "proved",
   "theorems": [
    "C20_serial"
   ],
   "note": ""
  },
  {
   "property": "C21",
   "status": "partial",
   "theorems": [
    "C21_router_keys_partial",
    "C21_exact_partial",
    "C21_ssh_refuted"
   ],
   "note": "REFUTED over SSH: acceptClientSSH never applies DisableBGPSec. Proved: version-0 clients never get a Router Key on any transport, and DisableBGPSec holds over TCP and TLS; and exactly which keys the answer to a Reset Query has"
  },
  {
   "property": "C22",
   "status": "proved",
   "theorems": [
    "C22_version"
   ],
   "note": ""
  },
  {
   "property": "C23",
   "status": "proved",
   "theorems": [
    "C23_negotiation",
    "C23_enforced",
    "C23_pdu_types"
   ],
   "note": ""
  },
  {
   "property": "C24",
   "status": "partial",
   "theorems": [
    "C24_refuted",
    "C24_blocked_refuted",
    "C24_fatal_last_partial",
    "C24_exact_partial"
   ],
   "note": "REFUTED: a query in a wrong version is answered in full after the error report and the disconnection. Proved: for PDUs in the negotiated version a fatal error is the last thing queued; no PDU is read after it; for every PDU exactly what is queued: something follows if and only if a query came in a version that is not the client's (C24_exact_partial)"
  },
  {
   "property": "C25",
   "status": "partial",
   "theorems": [
    "C25_refuted",
    "C25_lost_refuted",
    "C25_never_over_partial",
    "C25_exact_partial",
    "C25_ssh_partial"
   ],
   "note": "REFUTED: a Serial Query in a wrong version decrements twice, SSH counts twice, and does so without the lock: updates of the counter are lost, it can end as high as one likes with nobody connected. Proved: without SSH never above the list; exact if moreover no such query arrives; with SSH exactly the clients plus the SSH connections that last"
  },
  {
   "property": "C26",
   "status": "partial",
   "theorems": [
    "C26_refuted",
    "C26_limit_partial",
    "C26_bound_partial",
    "C26_excess_refuted"
   ],
   "note": "REFUTED: the counter is incremented after accept, and runs low (C25). Proved where the counter is exact and each connection is counted before the next accept; and under every schedule, with SSH and whatever clients send: if the counter misses at most D connections whenever one is accepted there are at most MaxConn + D clients, which is reached for every D by clients that send nothing"
  },
  {
   "property": "C27",
   "status": "partial",
   "theorems": [
    "C27_refuted",
    "C27_dropped",
    "C27_fragment",
    "C27_aligned_partial",
    "C27_firsts_partial"
   ],
   "note": "REFUTED: everything after the first PDU of a read is dropped and a fragment disconnects. Proved: the answers depend only on the PDU sequence when each read returns one whole PDU; exact behaviour on coalesced and fragmented PDUs"
  },
  {
   "property": "C28",
   "status": "proved",
   "theorems": [
    "C28_timers"
   ],
   "note": ""
  },
  {
   "property": "C29",
   "status": "proved",
   "theorems": [
    "C29_sessions"
   ],
   "note": ""
  },
  {
   "property": "C30",
   "status": "partial",
   "theorems": [
    "C30_refuted",
    "C30_exact_partial",
    "C30_no_panic_partial"
   ],
   "note": "REFUTED for base version 0 without enforcement: the version is 1 for a moment during negotiation. Proved for base version 1 or with enforcement: nothing in the server panics under any schedule; and for every base version exactly when it does (C30_exact_partial)"
  },
  {
   "property": "C31",
   "status": "proved",
   "theorems": [
    "C31_delivery"
   ],
   "note": ""
  },
  {
   "property": "C32",
   "status": "partial",
   "theorems": [
    "C32_refuted",
    "C32_ends_partial",
    "C32_missed_partial"
   ],
   "note": "REFUTED: a Disconnect between the sender's test and its select is missed and the sender waits for ever. Proved: in every other position at most three sender steps end it, and in that position the sender ends exactly if something more is queued for the client"
  },
  {
   "property": "C33",
   "status": "partial",
   "theorems": [
    "C33_refuted",
    "C33_completes_partial",
    "C33_exact_partial"
   ],
   "note": "REFUTED: a full channel blocks the notifier and all later clients. Proved: in every reachable state the notifier gets past a client exactly when there is room on its channel; with room on every channel it completes and queues exactly one Serial Notify per listed client"
  },
  {
   "property": "C34",
   "status": "proved",
   "theorems": [
    "C34_vrps"
   ],
   "note": "for every sort function that returns a sorted permutation"
  },
  {
   "property": "C35",
   "status": "partial",
   "theorems": [
    "C35_update_refuted",
    "C35_contiguous_refuted",
    "C35_first_load_partial",
    "C35_arrival_partial"
   ],
   "note": "REFUTED: after an update the new records are served behind the kept ones whatever their length, and maxLength is compared before the address. Proved: after the first load the response to a Reset Query has longer prefixes first; after any number of files it is one stretch per file, in the order of the files, of what came with it and stayed, each with longer prefixes first (C35_arrival_partial)"
  },
  {
   "property": "C36",
   "status": "proved",
   "theorems": [
    "C36_counts"
   ],
   "note": ""
  },
  {
   "property": "C37",
   "status": "partial",
   "theorems": [
    "C37_twice_refuted",
    "C37_keys_partial",
    "C37_exact_partial"
   ],
   "note": "REFUTED: duplicate router keys are served twice. Proved: exactly the unexpired hexadecimal entries, entry by entry and in order; how often each key is produced for any list, and when each is once (C37_exact_partial)"
  },
  {
   "property": "C38",
   "status": "partial",
   "theorems": [
    "C38_letters_refuted",
    "C38_overflow_refuted",
    "C38_fraction_refuted",
    "C38_text",
    "C38_text_exact_partial",
    "C38_number_partial"
   ],
   "note": "REFUTED: other mixes of the letters A and S, JSON numbers from 2^32 on and fractions are accepted. Proved: n and ASn are read exactly and rejected from 2^32 on; exact set of accepted strings; numbers below 2^32 are exact"
  },
  {
   "property": "C39",
   "status": "partial",
   "theorems": [
    "C39_unparsable_refuted",
    "C39_as0_refuted",
    "C39_split_partial",
    "C39_order_partial",
    "C39_exact_partial"
   ],
   "note": "REFUTED: a filter prefix that does not parse matches everything; an unparsable AS number counts as AS 0. Proved for parsable entries and filters, with containment stated on addresses; order preserved always. C39_exact_partial says for every input exactly what is removed"
  },
  {
   "property": "C40",
   "status": "partial",
   "theorems": [
    "C40_nonhex_refuted",
    "C40_split_partial",
    "C40_nonhex_partial",
    "C40_exact_partial"
   ],
   "note": "REFUTED: a non-hexadecimal SKI is compared by its decodable part from the second filter on. Proved for hexadecimal SKIs, and for others when no filter has that part as its SKI. C40_exact_partial says for every input exactly what is removed"
  },
  {
   "property": "C41",
   "status": "partial",
   "theorems": [
    "C41_maxlen_refuted",
    "C41_vrp_partial",
    "C41_key",
    "C41_nothing_else",
    "C41_exact_partial"
   ],
   "note": "REFUTED: max lengths above 255 are cut to eight bits. Proved for max lengths below 256 and for all BGPsec assertions; nothing else is added. C41_exact_partial gives the resulting entries for every max length and every prefix text"
  },
  {
   "property": "C42",
   "status": "proved",
   "theorems": [
    "C42_idempotent"
   ],
   "note": ""
  },
  {
   "property": "C43",
   "status": "partial",
   "theorems": [
    "C43_null_refuted",
    "C43_publishes_partial",
    "C43_exact_partial"
   ],
   "note": "REFUTED: a file without a list of VRPs (absent or null) is accepted but not published. Proved for files with one, after any history. What is served after every history, exactly: C43_exact_partial"
  },
  {
   "property": "C44",
   "status": "proved",
   "theorems": [
    "C44_quiet"
   ],
   "note": ""
  },
  {
   "property": "C45",
   "status": "partial",
   "theorems": [
    "C45_unchanged_refuted",
    "C45_generated_refuted",
    "C45_router_refuted",
    "C45_published_partial",
    "C45_drop_partial",
    "C43_exact_partial",
    "C45_undated_partial",
    "C45_never_dated_partial"
   ],
   "note": "REFUTED: an unchanged file is never dropped, nor are files dated with 'generated'; and when the daemon does drop everything, routers that go on polling keep all they have. Proved: nothing stale is newly published; everything is dropped when a new file arrives and both it and the last published one are too old. When exactly everything is dropped: C43_exact_partial. A file without a readable time changes nothing, and old data stays"
  },
  {
   "property": "C46",
   "status": "partial",
   "theorems": [
    "C46_stale_refuted",
    "C46_duplicate_refuted",
    "C46_current_partial",
    "C43_exact_partial"
   ],
   "note": "REFUTED: with time checking an old unchanged file stops expiry; a router key listed twice defeats the comparison of counts. Proved: exactly the unexpired records are served after every refresh otherwise. What is served after every history, exactly: C43_exact_partial"
  },
  {
   "property": "C47",
   "status": "proved",
   "theorems": [
    "C47_silent"
   ],
   "note": ""
  },
  {
   "property": "C48",
   "status": "partial",
   "theorems": [
    "C48_drop_refuted",
    "C48_announced_partial",
    "C48_quiet_partial",
    "C48_delivered_partial",
    "C48_exact_partial",
    "C48_only_partial"
   ],
   "note": "REFUTED: the drop of stale data changes data and serial without notification. Proved: a change is announced exactly if notifications are on and the file in use is recent, and nothing but a change is; delivery to each client given room in its channel"
  },
  {
   "property": "C49",
   "status": "partial",
   "theorems": [
    "C49_drop_refuted",
    "C49_alias_refuted",
    "C49_export_partial"
   ],
   "note": "REFUTED: a drop leaves the export unchanged; a reloaded SLURM file can overwrite the spare room of the exported slice. Proved otherwise"
  },
  {
   "property": "C50",
   "status": "partial",
   "theorems": [
    "C50_stuck_refuted",
    "C50_lastmod_refuted",
    "C50_plain_partial",
    "C50_error_partial",
    "C50_current_partial"
   ],
   "note": "REFUTED: validators are stored before the content is read, so a version whose download broke off is never read while the server has it. Proved: every complete response is used without conditional requests and after an HTTP error; no update is missed between complete downloads"
  },
  {
   "property": "C51",
   "status": "proved",
   "theorems": [
    "C51_carried_out",
    "C51_refused",
    "C51_one_queued",
    "C51_answered"
   ],
   "note": "that a refresh ends is up to the network: the loop's step out of a refresh is taken to be possible"
  },
  {
   "property": "C52",
   "status": "partial",
   "theorems": [
    "C52_sets",
    "C52_counts",
    "C52_thresholds",
    "C52_history",
    "C52_case_refuted",
    "C52_rtr_withdrawn_refuted",
    "C52_break_refuted"
   ],
   "note": "The two sets, their sizes and the per-threshold counts (for exactly the thresholds that reach back no further than the start) are proved for all maps that occur, and for two file sources in terms of the listings over time (C52_history). REFUTED as stated: a router key with capital letters in a file differs from the same key of an RTR server; an RTR source keeps no time of last sight, so an object withdrawn a second ago counts as long absent; with rtr.break every reconnection restarts FirstSeen."
  },
  {
   "property": "C53",
   "status": "partial",
   "theorems": [
    "C53_rebuild",
    "C53_history",
    "C53_collision_refuted",
    "C53_shown_partial",
    "C53_whole_partial"
   ],
   "note": "Full contract per round and over any history of rounds, for files whose router key identifiers contain no - or / (hexadecimal ones do not). REFUTED without that: a router key can overwrite a VRP in the map; for all files, what is shown exactly and when it is the whole file (C53_shown_partial, C53_whole_partial)."
  },
  {
   "property": "C54",
   "status": "proved",
   "theorems": [
    "C54_unchanged",
    "C53_history"
   ],
   "note": ""
  },
  {
   "property": "C55",
   "status": "partial",
   "theorems": [
    "C55_stream_partial",
    "C55_stable",
    "C55_watch_partial",
    "C55_reconnect_refuted",
    "C55_cache_reset_refuted"
   ],
   "note": "REFUTED as stated: records withdrawn between two sessions stay for ever, and a Cache Reset is ignored. Proved: the map is the result of all records received in order; against this server over one session, at most one serial behind at each poll, it is exactly the set published under the serial."
  },
  {
   "property": "C56",
   "status": "partial",
   "theorems": [
    "C56_reset_partial",
    "C56_exact_partial",
    "C56_cut",
    "C56_listed_partial",
    "C56_withdrawn_refuted",
    "C56_incomplete_refuted",
    "C56_truncated_refuted"
   ],
   "note": "REFUTED: withdrawn records are written as if announced; an error report or any other unexpected PDU ends the dump, which is then written as complete. Proved for responses that only announce, and that a broken connection leaves no file; and for every stream of bytes exactly whether a file is written and what is in it (C56_exact_partial)"
  },
  {
   "property": "C57",
   "status": "partial",
   "theorems": [
    "C57_dump_partial",
    "C57_exact_partial",
    "C57_short_key_refuted"
   ],
   "note": "Proved exactly: the dump of a server with data succeeds, with exactly what the server has, if and only if every router key sent fits the wire format. For all server contents with data, over every transport and version; REFUTED for router keys with a public key under 4 bytes, which the server sends and the client rejects"
  },
  {
   "property": "C58",
   "status": "proved",
   "theorems": [
    "C58_session",
    "C58_monotone"
   ],
   "note": "for every handler and byte stream"
  },
  {
   "property": "C59",
   "status": "proved",
   "theorems": [
    "C59_text_roundtrip",
    "C59_text_injective"
   ],
   "note": ""
  },
  {
   "property": "C60",
   "status": "proved",
   "theorems": [
    "C60_accepts",
    "C60_roundtrip",
    "C60_grace"
   ],
   "note": "sort.Slice is any function that returns a sorted permutation."
  },
  {
   "property": "C61",
   "status": "partial",
   "theorems": [
    "C61_decision_partial",
    "C61_exact_partial",
    "C61_damaged_refuted",
    "C61_empty_password"
   ],
   "note": "REFUTED in general: a damaged line (key text followed by other characters) lets the key in. Proved for lists whose lines are keys, comments or empty: exactly the listed keys, whatever the other configuration; with no password configured the empty password is accepted. For any list of keys exactly which keys are let in: C61_exact_partial"
  },
  {
   "property": "C62",
   "status": "partial",
   "theorems": [
    "C62_refuted",
    "C62_one_updater_partial",
    "C62_apart_partial"
   ],
   "note": "REFUTED: AddData reads and writes in separate critical sections. Proved: with one updater (as the commands run it) every published state is that of the sequential history; the same for any number of updaters whose calls do not overlap"
  },
  {
   "property": "C63",
   "status": "partial",
   "theorems": [
    "C63_refuted",
    "C63_matching_partial",
    "C63_exact_partial"
   ],
   "note": "REFUTED: the version is read twice, negotiation in between changes it. Proved when it does not change in between"
  },
  {
   "property": "C64",
   "status": "proved",
   "theorems": [
    "C64_asserted_vrp",
    "C64_asserted_key"
   ],
   "note": ""
  },
  {
   "property": "C65",
   "status": "partial",
   "theorems": [
    "C65_confirmed_refuted",
    "C65_kept_partial",
    "C65_exact_partial"
   ],
   "note": "REFUTED: the build time the drop looks at is not renewed by a file with the same records. Proved: nothing is dropped while the last published file is recent; and exactly when a served record stops being served (C65_exact_partial)"
  },
  {
   "property": "C67",
   "status": "partial",
   "theorems": [
    "C67_race_refuted",
    "C67_exact_partial",
    "C67_no_etags_partial",
    "C67_one_url_partial"
   ],
   "note": "REFUTED: the map of ETags is read without the lock (line 138) while the other download may write to it; Go aborts the program on this. Proved exactly for two downloads: they can meet if and only if one compares ETags while the other stores, and they never wait for ever; without ETags for any number of downloads, and when at most one file is a URL"
  },
  {
   "property": "C68",
   "status": "partial",
   "theorems": [
    "C68_end_to_end_partial",
    "C68_end_to_end_refuted"
   ],
   "note": "REFUTED as stated: after a download that broke off the server truthfully answers 304 and the older version is served. Proved for servers whose validators tell versions apart, without broken-off downloads (C50) and within the limits of C46"
  },
  {
   "property": "C66",
   "status": "partial",
   "theorems": [
    "C66_protocol_partial",
    "C66_protocol_refuted",
    "C66_timers_partial",
    "C66_timers_refuted",
    "C66_timers_exact_partial",
    "C66_bgpsec_partial",
    "C66_notifications",
    "C66_checktime",
    "C66_slurm",
    "C66_slurm_once",
    "C66_conditional",
    "C66_maxconn_refuted",
    "C66_nodelay_refuted",
    "C66_boot"
   ],
   "note": "REFUTED as stated: -maxconn is never passed to the server, -enable.nodelay is dropped by NewServer, -protocol 2 silently means 0, intervals outside 1..2^32-1 are sent wrapped or replaced, -refresh 0 crashes, -disable.bgpsec does not hold over SSH. Proved for values in range: the rest; for all values what End of Data carries and that it is the value of the flag exactly when that is an interval (C66_timers_exact_partial)"
  },
  {
   "property": "C70",
   "status": "partial",
   "theorems": [
    "C70_validate_refuted",
    "C70_secondary_refuted",
    "C70_primary",
    "C70_secondary_partial",
    "C70_credential_exact_partial",
    "C70_validation_exact_partial"
   ],
   "note": "REFUTED: the validation flags are never looked at, so every server is accepted; the secondary ignores the password of the environment. Proved: user and credential of the primary, and of the secondary exactly otherwise (C70_credential_exact_partial); the validation is as asked exactly when none is asked for (C70_validation_exact_partial)"
  },
  {
   "property": "C71",
   "status": "proved",
   "theorems": [
    "C71_dump",
    "C71_type"
   ],
   "note": "the decisions of crypto/tls and x/crypto/ssh given their configuration are library assumptions"
  },
  {
   "property": "C73",
   "status": "partial",
   "theorems": [
    "C73_served",
    "C73_rejected",
    "C73_closed",
    "C73_keepalive_refuted",
    "C73_keepalive_partial"
   ],
   "note": "REFUTED in one point: global requests are not answered while RTR is served. The rest is proved for all interleavings"
  },
  {
   "property": "C74",
   "status": "partial",
   "theorems": [
    "C74_turn_partial",
    "C74_ssh_refuted",
    "C74_ssh_partial",
    "C74_ssh_exact_partial"
   ],
   "note": "REFUTED for SSH: the handshake is made in the accept loop and a silent client stops it. Proved for TCP and TLS, and for SSH if all handshakes end"
  },
  {
   "property": "C79",
   "status": "partial",
   "theorems": [
    "C79_dump_partial",
    "C79_dump_refuted",
    "C79_export_partial",
    "C79_generated_refuted",
    "C79_dumps_refuted"
   ],
   "note": "REFUTED with -checktime, the default: the file of rtrdump carries no time and is never used, however often it is written anew (C79_dumps_refuted), and so is an export made from a file with generated and no buildtime. Proved: the rest, for all histories; the JSON text in between is that of C90"
  },
  {
   "property": "C69",
   "status": "partial",
   "theorems": [
    "C69_totals_partial",
    "C69_split_partial",
    "C69_totals_refuted"
   ],
   "note": "REFUTED: both counts include objects that are gone and in the grace period. Proved for all schedules at rest: they count exactly the visible ones and those in the grace period, and the grace gauge is exact; so the total is the number shown plus that gauge"
  },
  {
   "property": "C72",
   "status": "partial",
   "theorems": [
    "C72_stays_partial",
    "C72_exact_partial",
    "C72_stays_refuted"
   ],
   "note": "REFUTED: the next download clears Visible in entries diff.json still refers to. Proved: objects, order, times and metadata stay, and everything stays if no source is a file; from rest on, exactly which entries are cleared: those the first reading since no longer lists, when made within the grace period"
  },
  {
   "property": "C76",
   "status": "partial",
   "theorems": [
    "C76_survives_partial",
    "C76_file_partial",
    "C76_keeps_refuted"
   ],
   "note": "REFUTED: a server that closes the connection or cannot be reached ends the process (log.Fatal). Proved: the exact condition under which a round survives, and that files are retried"
  },
  {
   "property": "C81",
   "status": "proved",
   "theorems": [
    "C81_rest",
    "C81_nothing",
    "C81_settles"
   ],
   "note": "for all schedules; the JSON text and Prometheus are not modelled"
  },
  {
   "property": "C82",
   "status": "partial",
   "theorems": [
    "C82_metadata_partial",
    "C82_serial_refuted",
    "C82_session_refuted"
   ],
   "note": "REFUTED: the serial is set before the data is (visible to a comparison in between), the session when a response begins. Proved for all schedules at rest with no open response"
  },
  {
   "property": "C80",
   "status": "partial",
   "theorems": [
    "C80_gauges_partial",
    "C80_objects_partial",
    "C80_exact_partial",
    "C80_drop_refuted",
    "C80_keys_refuted"
   ],
   "note": "REFUTED: when everything is dropped for its age the gauges still show the old data, and a router key listed twice counts twice. Proved for all histories: while anything is served the gauges are set and exact; and whatever is served they are those of the last refresh that loaded another set, what is served having changed since then only to nothing (C80_exact_partial)"
  },
  {
   "property": "C83",
   "status": "partial",
   "theorems": [
    "C83_url_partial",
    "C83_file",
    "C83_exact_partial",
    "C83_url_refuted"
   ],
   "note": "REFUTED: a URL of eight bytes and schemes in capitals are opened as files. Proved for longer ones, and for all files"
  },
  {
   "property": "C84",
   "status": "partial",
   "theorems": [
    "C84_query_partial",
    "C84_exact_partial",
    "C84_version",
    "C84_cut_refuted"
   ],
   "note": "REFUTED: a negative version is taken for 0, session and serial are truncated. Proved for values in range: exact bytes; version above 1 refused; for all flags the bytes sent, and that they are the ones described exactly when the values fit (C84_exact_partial)"
  },
  {
   "property": "C78",
   "status": "partial",
   "theorems": [
    "C78_clients_partial",
    "C78_never_over_partial",
    "C78_pdus_partial",
    "C78_labels",
    "C78_clients_refuted",
    "C78_pdus_refuted"
   ],
   "note": "REFUTED: a Serial Query in a bad version counts its client out twice (gauge -1), two PDUs in one segment count once. Proved for all schedules: never too high at rest, exact if no such query arrives (SSH included); one counter per type, exact for the PDUs read"
  },
  {
   "property": "C85",
   "status": "partial",
   "theorems": [
    "C85_order",
    "C85_versions_partial",
    "C85_versions_refuted"
   ],
   "note": "Order, exactness and completeness at rest are proved for all handlers and schedules. REFUTED in the last point: SendPDU reads the version and sends in two steps, two senders can pass each other at a downgrade; proved for one sender beside the session, as in rtrmon"
  },
  {
   "property": "C86",
   "status": "partial",
   "theorems": [
    "C86_alone",
    "C86_returns",
    "C86_sender_partial",
    "C86_poll_partial",
    "C86_sender_refuted",
    "C86_poll_refuted"
   ],
   "note": "REFUTED: a Disconnect between the sender's test and its select leaves the sender waiting for ever, and a caller of SendPDU waits for ever on a full channel. Proved: refinement to the sequential session, StartRW returns unless the channel fills, the sender ends within three steps unless Disconnect ran between its test and its select"
  },
  {
   "property": "C75",
   "status": "partial",
   "theorems": [
    "C75_limit_refuted",
    "C75_zero_refuted",
    "C75_race_refuted",
    "C75_at_most_partial",
    "C75_first_partial",
    "C75_room_partial",
    "C75_counter_partial"
   ],
   "note": "REFUTED as stated: a client disconnected by SetMaxConnections is counted out again by its own reader, so that afterwards more than m clients are let in; SetMaxConnections(0) disconnects everybody; a client leaving during the call makes it disconnect one too many. Proved under every interleaving: at most m clients (and those arriving meanwhile) when the call returns if the counter was right; exactly the first ones of the list are disconnected; nobody if there is room; how far the counter is off"
  },
  {
   "property": "C77",
   "status": "partial",
   "theorems": [
    "C77_late_partial",
    "C77_every_partial",
    "C77_apart_partial",
    "C77_drift_refuted",
    "C77_thirty_refuted",
    "C77_close_refuted",
    "C77_overflow_refuted"
   ],
   "note": "REFUTED as stated: initialSyncNotComplete is never cleared, so after a failed first reading refreshes are the interval and their own duration apart for ever; as long as no file has been read it is 30 seconds, also when -refresh is less; after a refresh longer than the interval two can be closer than the interval; -refresh above 2^63 ns wraps round. Proved for all intervals below that, all durations and triggers: the next refresh begins at most the interval after the previous ended; exactly the interval after it began if the first reading succeeded and refreshes are shorter than the interval; never less than that"
  },
  {
   "property": "C87",
   "status": "partial",
   "theorems": [
    "C87_values_partial",
    "C87_query_partial",
    "C87_one_poller_partial",
    "C87_ends",
    "C87_break",
    "C87_early_refuted",
    "C87_mixed_refuted",
    "C87_stale_refuted"
   ],
   "note": "REFUTED as stated: a server slower than the refresh interval is asked for session 0, serial 0; between Cache Response and End of Data of a new session the query has the new session id and the serial of the old session; a poller that is late by a refresh interval takes the channel of the next session for its own and goes on. Proved for all interleavings: what a query carries; the full form once the session has completed a response, no other has begun and earlier pollers returned in time; that they can return; nothing with rtr.break"
  },
  {
   "property": "C88",
   "status": "proved",
   "theorems": [
    "C88_cut",
    "C88_served"
   ],
   "note": "for all files, cuts and histories, on the model of encoding/json"
  },
  {
   "property": "C89",
   "status": "partial",
   "theorems": [
    "C89_accepts",
    "C89_only_partial",
    "C89_trailing_refuted"
   ],
   "note": "REFUTED: what follows the first value is ignored. Proved: every JSON text nested at most 10000 deep whose value is no lone number is read as its value; what is read begins with a text of that value (strings that are not well-formed UTF-8 or have lone surrogates are accepted)"
  },
  {
   "property": "C90",
   "status": "proved",
   "theorems": [
    "C90_export_text",
    "C90_export_doc",
    "C90_dump_text",
    "C90_dump_doc"
   ],
   "note": "The texts are JSON texts by RFC 8259 of the list and are read as the records they were made from, for all histories and all streams. What a second server then serves (C90_export_partial, C90_dump_partial) is the matter of C79, refuted with -checktime"
  },
  {
   "property": "C91",
   "status": "partial",
   "theorems": [
    "C91_filter_refuted",
    "C91_assertion_refuted",
    "C91_partial",
    "C91_null_partial"
   ],
   "note": "REFUTED: Base64 without padding, as RFC 8416 prescribes, makes the whole file unreadable. Proved: with padded standard Base64 a file is read as what it lists, in any order of members and with any other members; null in a filter is the same as no member"
  },
  {
   "property": "C92",
   "status": "partial",
   "theorems": [
    "C92_order_partial",
    "C92_meaning_partial",
    "C92_emptied_partial",
    "C92_duplicates_refuted",
    "C92_names_refuted"
   ],
   "note": "REFUTED for names that occur twice: the values are mixed; and a member called roas with a long s (U+017F) is taken for roas. Proved for distinct names without U+017F and U+212A"
  },
  {
   "property": "C93",
   "status": "partial",
   "theorems": [
    "C93_reads_partial",
    "C93_exact_partial",
    "C93_published_partial",
    "C93_refused_refuted",
    "C93_accepted_refuted",
    "C93_fresh_refuted"
   ],
   "note": "REFUTED: small t and z and the second 60 are refused, so a fresh file is not used; hours of one digit, a comma and offsets of 24 hours or 60 minutes are accepted. Proved: exactly which texts are read and as which instant (calendar counted day by day from 1970), and the 24 hours"
  },
  {
   "property": "C94",
   "status": "proved",
   "theorems": [
    "C94_echo",
    "C94_normal",
    "C94_none"
   ],
   "note": ""
  },
  {
   "property": "C95",
   "status": "partial",
   "theorems": [
    "C95_sync_partial",
    "C95_two_behind_refuted",
    "C95_forever_refuted",
    "C95_emptied_refuted",
    "C95_refilled_refuted",
    "C95_twice_refuted",
    "C95_behind_partial"
   ],
   "note": "REFUTED: a router two changes behind gets an empty diff under the new serial and stays wrong for good (a withdrawn VRP kept, a new one missing) at every later poll; when the set becomes empty routers keep everything; when it is filled again they are sent additions only, so that they keep the old records for good or are announced what they have (error 7). Proved: in step whenever each poll comes within one change of the last or after more changes than are kept, and the set is never emptied; for a router that misses any number of changes the exact condition on the sets fed in under which its next poll leaves it right (C95_behind_partial)"
  },
  {
   "property": "C96",
   "status": "partial",
   "theorems": [
    "C96_router_partial",
    "C96_text_partial",
    "C96_behind_refuted",
    "C96_emptied_refuted",
    "C96_kept_refuted",
    "C96_refilled_refuted",
    "C96_twice_refuted"
   ],
   "note": "REFUTED: after two refreshes between polls the router keeps records the file no longer lists; after a file with an empty list it keeps all, and the next file with records is added to them or answered with announcements of what it has (error 7). Proved: whenever the router polls after every refresh, there is always something to serve and no router key is listed twice, the router holds exactly what the file lists"
  },
  {
   "property": "C97",
   "status": "partial",
   "theorems": [
    "C97_steady_partial",
    "C97_order_refuted",
    "C97_order_partial",
    "C97_route_partial"
   ],
   "note": "REFUTED: in merged diffs withdrawals come before announcements; three serials behind, a route whose VRP was replaced is without authorisation in between. Proved for routers at most one serial behind, whatever they hold; and for routers any number of serials behind the exact order (by the change in which a record last came or went, announcements first within a change), so that a route is undisturbed unless a VRP covering it went in an earlier change than another one covering it last came"
  },
  {
   "property": "C98",
   "status": "partial",
   "theorems": [
    "C98_load_partial",
    "C98_history_partial",
    "C98_same_prefix_refuted",
    "C98_update_refuted"
   ],
   "note": "REFUTED: a VRP of another AS for the same prefix may come first; after an update new VRPs for longer prefixes come last. Proved for the first load and routes authorised by all covering VRPs of the longest prefix; and after any files: never invalid if the senior covering VRP authorises the route, invalid for a while if it does not (C98_history_partial)"
  },
  {
   "property": "C99",
   "status": "proved",
   "theorems": [
    "C99_report",
    "C99_one",
    "C99_doc",
    "C99_lossless",
    "C99_nothing"
   ],
   "note": "the address of a source is assumed to be valid UTF-8; a source that never delivered shows the time -6795364578 (C82)"
  },
  {
   "property": "C100",
   "status": "proved",
   "theorems": [
    "C100_slice",
    "C100_vrps",
    "C100_sorts",
    "C100_thresholds",
    "C100_first_load",
    "C100_ties_reversed"
   ],
   "note": "on the model of Go 1.23's pdqsort_func; entries that compare equal do not keep the order of the file (C100_ties_reversed)"
  },
  {
   "property": "C101",
   "status": "partial",
   "theorems": [
    "C101_refuted",
    "C101_duplicate_refuted",
    "C101_lost_refuted",
    "C101_lenient_partial",
    "C101_two_polls_partial"
   ],
   "note": "REFUTED: a change between the two reads of a full response makes the next answer announce again what the router has (RFC 8210 error 7); a change between the two reads of an answer to a router one change behind loses that first change for good (C101_lost_refuted: for every number of further polls). Proved for a router that takes announcements and withdrawals as they come: right after every answer if at most one change, or more than the history, lies between reading the serial of the last answer and reading the data of this one"
  },
  {
   "property": "C102",
   "status": "proved",
   "theorems": [
    "C102_read",
    "C102_next"
   ],
   "note": "RFC 9110 moreover wants two-digit years to be read relative to the clock (C102_moving_refuted: they are not, 2070 is read as 1970)"
  },
  {
   "property": "C103",
   "status": "partial",
   "theorems": [
    "C103_race_refuted",
    "C103_no_deadlock",
    "C103_bounded",
    "C103_only_locks",
    "C103_protected_partial",
    "C103_counter_partial"
   ],
   "note": "REFUTED: the counter of connections (SSH), version and state of a client, time and hash of the last file, the ETags, and serial and session in rtrmon are accessed without their lock. Proved: the data served, the clients, the exported document and the tables and differences of rtrmon never are; no deadlock, every run ends; the counter is right without SSH"
  },
  {
   "property": "C104",
   "status": "proved",
   "theorems": [
    "C104_by_value",
    "C104_answer",
    "C104_handed_out",
    "C104_queued",
    "C104_new_places"
   ],
   "note": "Model/Heap.v refines the value model of Model/Data.v and Model/Cache.v"
  },
  {
   "property": "C105",
   "status": "partial",
   "theorems": [
    "C105_never_refuted",
    "C105_refuted",
    "C105_change_refuted",
    "C105_change_partial",
    "C105_returns"
   ],
   "note": "REFUTED: rpki_refresh and refresh_requests_total are never set in any execution, because FetchFile gives status code and flag only together with an error and the callers return on errors first; rpki_change is not updated to the time of a change made by expiry. Proved: rpki_change is the time at which the file current at the last change was first read"
  },
  {
   "property": "C106",
   "status": "partial",
   "theorems": [
    "C106_stayrtr_partial",
    "C106_rtrmon_partial",
    "C106_unique",
    "C106_redirected",
    "C106_refuted",
    "C106_file_refuted"
   ],
   "note": "For paths made of plain names (no blank, brace or percent sign, a slash in front) the process starts if and only if they differ, and then every request in normal form gets exactly the page it has to get (which is unique), whatever its method and host; other requests are redirected. REFUTED as stated: equal paths, an empty one, one without a slash in front or with a blank end the process with a panic when they are registered (with rtrmon also an empty -file and -metrics=/), and -file=/diff.json is not at /diff.json."
  },
  {
   "property": "C107",
   "status": "partial",
   "theorems": [
    "C107_exact_partial",
    "C107_kept_partial",
    "C107_order_refuted",
    "C107_emptied",
    "C107_dropped",
    "C107_stray_refuted"
   ],
   "note": "REFUTED as stated: -rtr.expire below -rtr.refresh is accepted, and then routers that do as told are without data most of the time; and records of a router that was two changes behind (C95) stay for ever, since every answer starts the timer anew. Proved: exactly the records of the last poll until the Expire Interval has passed, nothing after, for routers that poll in time; nothing at most one Expire Interval after the store was emptied, for every router, schedule and daemon"
  },
  {
   "property": "C108",
   "status": "proved",
   "theorems": [
    "C108_text",
    "C108_unambiguous",
    "C108_spelling"
   ],
   "note": "The grammar (Spec/AddrText.v) is after RFC 4632, RFC 4291 section 2.2 and RFC 3986"
  },
  {
   "property": "C109",
   "status": "partial",
   "theorems": [
    "C109_once_partial",
    "C109_exact_partial",
    "C109_daemon_partial",
    "C109_twice_refuted",
    "C109_withdrawn_refuted"
   ],
   "note": "REFUTED: bits behind the length are neither refused nor cleared, so 10.0.0.0/8 and 10.1.2.3/8 are two records; a router that goes by the addresses gets the same authorization twice, and when the second entry goes it is told to drop what the first still lists. Proved: without such bits no authorization is there twice, for a file and for the daemon over any history of files and SLURM files, and none that is withdrawn is still served in another notation"
  },
  {
   "property": "C110",
   "status": "proved",
   "theorems": [
    "C110_valid"
   ],
   "note": "for every flag setting, environment (files, SLURM files, clock), schedule and byte from routers; keys below 4 GB, since the length field has 32 bits"
  },
  {
   "property": "C111",
   "status": "proved",
   "theorems": [
    "C111_answers"
   ],
   "note": "for every configuration, cache, schedule and byte from routers; Serial Notifies may come in between (C31)"
  },
  {
   "property": "C112",
   "status": "partial",
   "theorems": [
    "C112_rate_partial",
    "C112_short_refuted",
    "C112_asked_refuted",
    "C112_slow_refuted"
   ],
   "note": "REFUTED: there is no rate limit; with -refresh below a minute, or two SIGHUPs or update calls in a row, or refreshes of different duration with -refresh 60, notifications are closer. Proved: when nobody asks for refreshes and -refresh is a minute more than the longest refresh takes, for all files and durations; and never two in one refresh"
  },
  {
   "property": "C113",
   "status": "proved",
   "theorems": [
    "C113_answered"
   ],
   "note": "For every fair schedule a prefix exists after which the whole answer has been written; the number of turns needed is bounded by the answer, the channel and the number of steps of the notifier. Fairness of the Go scheduler is the hypothesis turn_each; turns of the sender are needed (C113_turns)."
  },
  {
   "property": "C114",
   "status": "proved",
   "theorems": [
    "C114_notified"
   ],
   "note": "For every fair schedule a prefix exists after which NotifyClientsLatest has returned and every listed router has been sent its Serial Notify and the rest of its answer; bound patience. The hypotheses (all routers stay and read, fairness) are needed: C33_refuted."
  },
  {
   "property": "C115",
   "status": "proved",
   "theorems": [
    "C115_alone",
    "C115_others"
   ],
   "note": "Refinement: the concurrent server of Model/Concurrent.v projected to one connection is the sequential read loop of Model/Conn.v; for every server, schedule and connection."
  },
  {
   "property": "C116",
   "status": "partial",
   "theorems": [
    "C116_in_step_partial",
    "C116_gets_there_partial",
    "C116_two_behind_refuted"
   ],
   "note": "REFUTED as C95 is: two changes between polls. Proved for every schedule and any other connections whenever the set is never emptied and each poll comes within one change of the last or after more changes than are kept."
  },
  {
   "property": "C117",
   "status": "proved",
   "theorems": [
    "C117_records",
    "C117_texts",
    "C117_exceptions"
   ],
   "note": "RFC 8416 is specified on the records themselves (Spec/Exceptions.v), apart from the entry-wise filters of the code; the router may come after a time with nothing to serve. For routers that follow updates see C96; unreadable filters and great maximum lengths: C39, C41."
  },
  {
   "property": "C118",
   "status": "proved",
   "theorems": [
    "C118_change_reaches_routers"
   ],
   "note": "Composition of C114 (the notification), C115 (the connection on its own), C95 and C113 (the answer); fairness of the Go scheduler is a hypothesis (turn_all, turn_each). If the serial number wraps with the change the router is sent a Cache Reset first (C01)."
  },
  {
   "property": "C119",
   "status": "proved",
   "theorems": [
    "C119_file_reaches_routers"
   ],
   "note": "Composition of C46 and C117 (what is due), C96 (each refresh is one update of the cache or none) and C118 (the update reaches the routers); hypotheses on fairness as in C118, on the data as in C46 and C96."
  },
  {
   "property": "C120",
   "status": "partial",
   "theorems": [
    "C120_page_partial",
    "C120_same_url_partial",
    "C120_before",
    "C120_same_url_refuted"
   ],
   "note": "REFUTED: when both sources have the same URL, vrp_diff shows the count of the secondary for both directions. Proved for every schedule: the gauges with a server label always, those with URL labels when the URLs differ (thresholds without repetition); the session while no response is open, as C82; whatever the URLs (C120_same_url_partial) vrp_diff of the secondary, and with one URL the gauge of the grace period, which then shows the file source read last."
  },
  {
   "property": "C121",
   "status": "partial",
   "theorems": [
    "C121_gone_refuted",
    "C121_exact_partial"
   ],
   "note": "REFUTED: a router that does not read until its channel is full and then closes its connection blocks NotifyClientsLatest, and with it the daemon's update loop, for ever; nobody is notified again. Proved exactly: the notifier waits for ever if and only if the channel is full and the sender has returned or is about to; otherwise at most three steps of that sender free it."
  },
  {
   "property": "C122",
   "status": "proved",
   "theorems": [
    "C122_router",
    "C122_cache",
    "C122_held"
   ],
   "note": "Counted in PDUs made and not yet written, in every reachable state of the concurrent model; sets without duplicate records (as processData produces them) and a positive number of kept diffs."
  },
  {
   "property": "C123",
   "status": "partial",
   "theorems": [
    "C123_refuted",
    "C123_exact_partial",
    "C123_agree_partial"
   ],
   "note": "REFUTED: rtrmon compares entries that have expired or that the server refuses, and router key identifiers as texts, which the server sends in small letters. Proved: exactly which objects are reported on either side, that nothing is reported if and only if the file lists exactly what it offers, and that files of acceptable, unexpired entries with identifiers in small letters agree; the session as in C55 (polled at most one serial behind)."
  },
  {
   "property": "C124",
   "status": "partial",
   "theorems": [
    "C124_refuted",
    "C124_exact_partial",
    "C124_agree_partial"
   ],
   "note": "REFUTED: the export has entries that had expired when they were loaded, and identifiers in capital letters. Proved over any history in which something is served (no SLURM reloading, or no spare room, as in C49): exactly which objects are reported on either side, that nothing is reported if and only if the export lists exactly what it offers, and that exports of acceptable, unexpired entries with identifiers in small letters agree; the session as in C55."
  },
  {
   "property": "C125",
   "status": "partial",
   "theorems": [
    "C125_refuted",
    "C125_refused",
    "C125_partial",
    "C125_unloaded",
    "C125_reset_partial",
    "C125_misled"
   ],
   "note": "REFUTED: the session number is drawn from 16 random bits and the serial starts at 0 again; when the same number is drawn and the serials meet, the router is told that it is up to date and keeps the old records (C125_misled). Proved: refused exactly when the numbers drawn differ (C125_refused), and then, whatever the two histories, in step with the new run and so for ever (timely polls as in C95); the same when the new run has no difference for the serial the router names. Before anything is loaded the router keeps what it has, without a session."
  },
  {
   "property": "C126",
   "status": "partial",
   "theorems": [
    "C126_refuted",
    "C126_ignored",
    "C126_passed_on_partial"
   ],
   "note": "REFUTED: the flag is not looked at, every schedule goes as without it (C126_ignored), so nothing is written and the process goes on. Were the flag passed on, Compare would end exactly when both sources have been compared, after which the published comparison never changes again and each client blocks at its next announcement (C126_passed_on_partial). Writing and exiting have no code at all: modelled as never happening."
  },
  {
   "property": "C127",
   "status": "partial",
   "theorems": [
    "C127_loaded",
    "C127_outcome",
    "C127_taken_exact_partial",
    "C127_taken_refuted"
   ],
   "note": "REFUTED in the last clause: each listener is started before the files of the next are read and without waiting for the others to be bound, so a router can be served by a process that then ends. Proved: connections only after the first load and only as asked (C127_loaded); at most nineteen steps of the process, then exactly the listeners asked for are open or it has ended with an error, according to whether everything can be had (C127_outcome); exactly which transports can serve somebody, in whatever configuration (C127_taken_exact_partial)."
  },
  {
   "property": "C128",
   "status": "partial",
   "theorems": [
    "C128_clients_refuted",
    "C128_files_refuted",
    "C128_exact_partial",
    "C128_limit_partial"
   ],
   "note": "REFUTED: MaxConn is never set from -maxconn, so clients that only connect take every descriptor; then each refresh fails and the accept loop goes round without waiting (C128_clients_refuted). FetchFile never closes a local file it has read, so until the garbage collector comes each refresh costs one (C128_files_refuted). Proved: something fails for want of a descriptor exactly when the clients and the files opened since the last collection have all there are; with a limit on connections that leaves room for those files nothing fails."
  },
  {
   "property": "C129",
   "status": "partial",
   "theorems": [
    "C129_refuted",
    "C129_waits_partial"
   ],
   "note": "REFUTED: the HTTP client has limits for connecting and for the TLS handshake and none for the response, so a server that takes the connection and does not answer, or stops in the middle, holds up the daemon for any length of time; SIGHUP and requests to update wait behind it. Proved: time passes while a refresh is waiting only in that case or within 40 seconds (30 without TLS) of the beginning of the last."
  }
 ]
}