{"id": "C01", "title": "Network integers round-trip", "statement": "short2net followed by net2short returns the same 16-bit value, long2net followed by net2long returns the value modulo 2^32; both advance the buffer pointer by exactly 2 resp. 4 and store big-endian bytes.", "quantifier": "every 16-bit and every unsigned long value", "why_tests_cant": "65 536 shorts could be enumerated, 2^32 / 2^64 longs cannot", "anchors": ["libmdnsd/1035.c: net2short", "libmdnsd/1035.c: net2long", "libmdnsd/1035.c: short2net", "libmdnsd/1035.c: long2net"]}
{"id": "C02", "title": "Every message built with the message_* calls parses back to itself", "statement": "A message built by message_qd / message_an / message_ns / message_ar and the message_rdata_* calls in section order, with legal names that all end in the same label (such as local) and use it nowhere else, and whose uncompressed size is at most 4096 bytes, or whose packet has at most 1435 bytes however much compression saved, when rendered by message_packet is accepted by message_parse, which returns the same id, header bits, counts, owner names, types, classes, TTLs and record data, in the same order.", "quantifier": "every such message: any number of questions and records, any names and data", "why_tests_cant": "the compression table makes each name's bytes depend on all earlier names; the space of messages is unbounded", "anchors": ["libmdnsd/1035.c: message_qd", "libmdnsd/1035.c: _rrappend", "libmdnsd/1035.c: message_rdata_*", "libmdnsd/1035.c: message_packet", "libmdnsd/1035.c: message_parse", "libmdnsd/1035.c: _host", "libmdnsd/1035.c: _label"]}
{"id": "C03", "title": "Name compression never changes a name", "statement": "Each name written into a packet decodes, by RFC 1035 label/pointer rules, to exactly the name passed in, whatever was written before it. (Refuted in general: the table lookup follows stored pointers relative to the write cursor, so 'x.' can be written as a pointer to 'x.y.'. Proved when no suffix of a name is a strict prefix of a suffix of another, e.g. when all names end in .local and use that label nowhere else.)", "quantifier": "every sequence of names written to one packet", "why_tests_cant": "depends on the whole history of names in the packet", "anchors": ["libmdnsd/1035.c: _host", "libmdnsd/1035.c: _lmatch"]}
{"id": "C04", "title": "The parser terminates on every packet", "statement": "message_parse returns for every packet content, including compression pointers that form loops or chains.", "quantifier": "every content of the receive buffer", "why_tests_cant": "cyclic pointer graphs are unbounded in number; a hang is not observable by finite sampling", "anchors": ["libmdnsd/1035.c: message_parse", "libmdnsd/1035.c: _label"]}
{"id": "C05", "title": "The parser writes only inside the message block", "statement": "While parsing any packet, message_parse never stores outside the message structure's own block: every name, rdata copy, address string and section array lies within it. (A NUL terminator can land one byte past the declared array, in the structure's tail padding: refuted for the declared array size, proved for the structure size.)", "quantifier": "every content of the receive buffer", "why_tests_cant": "needs the worst case over all packets and counts", "anchors": ["libmdnsd/1035.c: message_parse", "libmdnsd/1035.c: _label", "libmdnsd/1035.c: _rrparse"]}
{"id": "C06", "title": "The parser reads only the receive buffer", "statement": "message_parse reads only bytes of the buffer handed to it. (Refuted for the 65536-byte buffer process_in uses, by a small packet; an upper bound on how far it can read past the end is proved.)", "quantifier": "every content of the receive buffer", "why_tests_cant": "needs the worst case over all packets", "anchors": ["libmdnsd/1035.c: message_parse", "libmdnsd/1035.c: _rrparse", "libmdnsd/mdnsd.c: process_in"]}
{"id": "C07", "title": "Objects handed out by the parser never overlap", "statement": "After a successful parse the question array, the three record arrays, all names, all rdata copies and all address strings occupy pairwise disjoint parts of the message block, so reading one is unaffected by the others; every parsed name has at most 256 characters.", "quantifier": "every accepted packet", "why_tests_cant": "aliasing depends on the whole packet", "anchors": ["libmdnsd/1035.c: message_parse", "libmdnsd/1035.c: _label", "libmdnsd/1035.c: _rrparse"]}
{"id": "C08", "title": "Header and flag bits survive encoding", "statement": "For every id, qr, opcode, aa, tc, rd, ra, z, rcode and section counts within their bit widths, message_packet followed by message_parse's header decoding yields the same values.", "quantifier": "every combination of header field values", "why_tests_cant": "2^64 combinations", "anchors": ["libmdnsd/1035.c: message_packet", "libmdnsd/1035.c: message_parse"]}
{"id": "C09", "title": "The name decoder agrees with RFC 1035", "statement": "Whenever the bytes at a position denote a name under the RFC 1035 rules (labels of 1..63 bytes, backward pointers below 4096 that point at a label, total at most 255) and the pointers are within the part of the packet the decoder accepts, message_parse yields exactly that name in dotted form and continues right after its encoding. (Refuted when a pointer designates the root label: the decoder inserts a dot and runs on into the following bytes.)", "quantifier": "every packet, every position, every RFC-legal name encoding", "why_tests_cant": "unbounded pointer structures", "anchors": ["libmdnsd/1035.c: _label", "libmdnsd/1035.c: _ldecomp"]}
{"id": "C10", "title": "A record occupies exactly its announced rdlength", "statement": "After parsing a record the parser continues at the byte after its rdata as announced by rdlength. (Refuted: for A/AAAA/SRV/PTR the announced length is ignored; proved when the announced length is the natural one.)", "quantifier": "every record of every packet", "why_tests_cant": "each record type and length combination interacts with all following records", "anchors": ["libmdnsd/1035.c: _rrparse"]}
{"id": "C11", "title": "Name hashes always select a bucket inside the table", "statement": "For every string the bucket index computed from its hash is in [0, table size), for the published/query tables (109), the cache (1009) and any key/value table.", "quantifier": "every string, every table size", "why_tests_cant": "strings are unbounded; sign or overflow errors appear only for particular long strings", "anchors": ["libmdnsd/mdnsd.c: _namehash", "libmdnsd/xht.c: _xhter", "libmdnsd/xht.c: _xht_set"]}
{"id": "C12", "title": "The key/value table is a finite map", "statement": "After any sequence of xht_set / xht_store calls, xht_get returns exactly the value last stored for that key, or nothing if it was cleared or never stored, independent of collisions and of reuse of emptied nodes.", "quantifier": "every sequence of operations, every table size, every key set", "why_tests_cant": "collisions and node reuse depend on the entire history", "anchors": ["libmdnsd/xht.c: _xht_set", "libmdnsd/xht.c: xht_set", "libmdnsd/xht.c: xht_store", "libmdnsd/xht.c: xht_get"]}
{"id": "C13", "title": "xht_walk visits each live key exactly once", "statement": "xht_walk calls back exactly once for each key holding a value, with that value, and for no other key.", "quantifier": "every table reachable by any sequence of operations", "why_tests_cant": "history dependent", "anchors": ["libmdnsd/xht.c: xht_walk"]}
{"id": "C14", "title": "TXT decoding stays inside its input", "statement": "txt2sd terminates and reads only the len bytes it is given, for every byte string and every length, including lying length bytes.", "quantifier": "every byte string", "why_tests_cant": "all inputs", "anchors": ["libmdnsd/sdtxt.c: txt2sd"]}
{"id": "C15", "title": "TXT records round-trip", "statement": "For every set of key/value pairs with non-empty keys not containing '=' and entries of at most 255 bytes, txt2sd(sd2txt(h)) is a table with the same contents as h. (Refuted for longer entries: the length byte wraps.)", "quantifier": "every finite set of pairs, every table size", "why_tests_cant": "unbounded key/value sets, order depends on hashing", "anchors": ["libmdnsd/sdtxt.c: sd2txt", "libmdnsd/sdtxt.c: txt2sd"]}
{"id": "C16", "title": "sd2txt fills its allocation exactly", "statement": "The length returned by sd2txt equals the number of bytes written, for every table: the two walks agree, no byte is written past the allocation and none left undefined; the result is a sequence of length-prefixed strings when all entries are at most 255 bytes.", "quantifier": "every table", "why_tests_cant": "unbounded contents", "anchors": ["libmdnsd/sdtxt.c: _sd2txt_len", "libmdnsd/sdtxt.c: _sd2txt_count", "libmdnsd/sdtxt.c: _sd2txt_write", "libmdnsd/sdtxt.c: sd2txt"]}
{"id": "C17", "title": "No memory error for any history of API calls", "statement": "Starting from mdnsd_new, no sequence of calls to mdnsd_in, mdnsd_out, mdnsd_sleep, mdnsd_query, mdnsd_shared, mdnsd_unique, mdnsd_set_*, mdnsd_done, mdnsd_set_*addresses_for_host, mdnsd_set_interface_addresses, records_clear, mdnsd_set_address with a non-zero address, made with live record handles, with conflict callbacks registered and answer callbacks that do not return -1 for an expiry, ever uses a freed record or query, follows a NULL pointer or loops forever.", "quantifier": "every sequence of calls, every packet content, every clock reading, every callback result, every interface list", "why_tests_cant": "histories and interleavings are unbounded", "anchors": ["libmdnsd/mdnsd.c: mdnsd_in", "libmdnsd/mdnsd.c: mdnsd_out", "libmdnsd/mdnsd.c: mdnsd_done", "libmdnsd/mdnsd.c: _r_remove_lists", "libmdnsd/mdnsd.c: _r_push", "libmdnsd/mdnsd.c: _r_done", "libmdnsd/mdnsd.c: _q_done"]}
{"id": "C18", "title": "A record is queued at most once", "statement": "In every reachable state the probing, immediate, paused and announce queues are finite acyclic lists of live published records and no record is on two of them or twice on one.", "quantifier": "every reachable state", "why_tests_cant": "history dependent", "anchors": ["libmdnsd/mdnsd.c: _r_push", "libmdnsd/mdnsd.c: _r_remove_lists", "libmdnsd/mdnsd.c: _r_publish", "libmdnsd/mdnsd.c: _r_send"]}
{"id": "C19", "title": "Shutdown and address withdrawal are memory safe", "statement": "mdnsd_shutdown and mdnsd_set_address/mdnsd_set_ipv6_address with the zero address can be called in any state and all later mdnsd_out calls are memory safe. (Refuted: both relink records that may still be on another queue, leading to use after free; shutdown is proved safe, whatever waits to be probed or answered, if nothing is being announced or the goodbyes are sent before the next announcement; withdrawing the addresses is proved safe if no address record of that family waits on a queue.)", "quantifier": "every reachable state", "why_tests_cant": "depends on the queue contents at the time of the call", "anchors": ["libmdnsd/mdnsd.c: mdnsd_shutdown", "libmdnsd/mdnsd.c: mdnsd_set_address", "libmdnsd/mdnsd.c: mdnsd_set_ipv6_address"]}
{"id": "C20", "title": "An answer callback may unregister its query at any time", "statement": "If an answer callback returns -1 the query is removed and the daemon stays memory safe. (Proved for new answers and for expiry triggered by received packets and the periodic sweep; refuted for expiry detected while processing query retries: the freed query is used.)", "quantifier": "every reachable state and callback behaviour", "why_tests_cant": "depends on timing of expiry", "anchors": ["libmdnsd/mdnsd.c: _q_answer", "libmdnsd/mdnsd.c: _c_expire", "libmdnsd/mdnsd.c: mdnsd_out"]}
{"id": "C21", "title": "mdnsd_find returns exactly the published record of that name and type", "statement": "mdnsd_find(name,type) returns a live record with exactly this name and type if one is published, and NULL otherwise, regardless of hash collisions and of the history of creations and deletions.", "quantifier": "every reachable state, name and type", "why_tests_cant": "collisions depend on the names in use", "anchors": ["libmdnsd/mdnsd.c: mdnsd_find", "libmdnsd/mdnsd.c: mdnsd_shared", "libmdnsd/mdnsd.c: _r_done"]}
{"id": "C22", "title": "mdnsd_get_published lists only the host's records", "statement": "The records reached from mdnsd_get_published(host) through mdnsd_record_next are exactly the published records named host. (Refuted: records of other hosts in the same hash bucket are returned; proved that every record of the host is reached.)", "quantifier": "every reachable state and name", "why_tests_cant": "collisions depend on the names in use", "anchors": ["libmdnsd/mdnsd.c: mdnsd_get_published", "libmdnsd/mdnsd.c: mdnsd_record_next", "libmdnsd/mdnsd.h: mdnsd_get_published"]}
{"id": "C23", "title": "mdnsd_has_query tells whether the host is queried", "statement": "mdnsd_has_query(host) is true iff a query for that host is registered. (Refuted in the positive direction by hash collisions; proved that it is true whenever a query for the host is registered.)", "quantifier": "every reachable state and name", "why_tests_cant": "collisions depend on the names in use", "anchors": ["libmdnsd/mdnsd.c: mdnsd_has_query"]}
{"id": "C24", "title": "mdnsd_list enumerates exactly the matching cache entries", "statement": "Iterating mdnsd_list(host,type) yields each cached entry with that name and type (any type for ANY) exactly once and nothing else.", "quantifier": "every cache content, name and type", "why_tests_cant": "history dependent", "anchors": ["libmdnsd/mdnsd.c: mdnsd_list", "libmdnsd/mdnsd.c: _c_next"]}
{"id": "C25", "title": "Own packets are ignored", "statement": "mdnsd_in for a packet whose source address is the daemon's configured address or any address in the current interface snapshot changes no record, queue, query or cache entry and calls no callback.", "quantifier": "every state, packet and source address", "why_tests_cant": "all packets", "anchors": ["libmdnsd/mdnsd.c: mdnsd_in", "libmdnsd/mdnsd.c: _is_local", "libmdnsd/mdnsd.c: _is_local_ipv4", "libmdnsd/mdnsd.c: _is_local_ipv6"]}
{"id": "C26", "title": "After shutdown no input is processed", "statement": "Once mdnsd_shutdown was called, mdnsd_in returns non-zero and leaves the daemon unchanged.", "quantifier": "every state and packet", "why_tests_cant": "all packets", "anchors": ["libmdnsd/mdnsd.c: mdnsd_in", "libmdnsd/mdnsd.c: mdnsd_shutdown"]}
{"id": "C27", "title": "Queries only affect the records they ask for", "statement": "Processing a query packet never changes the data of any record nor the cache nor registered queries, and puts on the reply queues only records whose name equals a question's name, whose type equals the question's type or the question is ANY, for questions of the daemon's class.", "quantifier": "every state and query packet", "why_tests_cant": "all packets and states", "anchors": ["libmdnsd/mdnsd.c: mdnsd_in", "libmdnsd/mdnsd.c: _r_send"]}
{"id": "C28", "title": "Known-answer suppression", "statement": "For a single-question query a fully announced shared record matching the question is queued for reply if and only if no answer in the query's answer section carries the question's name and type and the record's data.", "quantifier": "every state, record and query packet", "why_tests_cant": "all combinations of known answers", "anchors": ["libmdnsd/mdnsd.c: mdnsd_in", "libmdnsd/mdnsd.c: _a_match"]}
{"id": "C29", "title": "Unverified unique names are not multicast as answers", "statement": "No multicast response ever carries, in its answer section, a live (TTL>0) unique record that has not completed probing. (Proved for the multicast answer section; refuted for unicast replies and for the additional section.)", "quantifier": "every reachable state", "why_tests_cant": "needs an invariant over all histories", "anchors": ["libmdnsd/mdnsd.c: mdnsd_out", "libmdnsd/mdnsd.c: mdnsd_in", "libmdnsd/mdnsd.c: _u_push", "libmdnsd/mdnsd.c: _ar"]}
{"id": "C30", "title": "Three probes precede the first announcement", "statement": "A unique record is included in exactly three probe messages (question plus proposed record in the authority section) before it is first announced.", "quantifier": "every history of calls from the creation of the record to its first announcement", "why_tests_cant": "unbounded interleavings", "anchors": ["libmdnsd/mdnsd.c: mdnsd_unique", "libmdnsd/mdnsd.c: mdnsd_out"]}
{"id": "C31", "title": "Conflict detection", "statement": "The conflict callback fires whenever another host answers with different data for one of our unique names. (Refuted: the check on responses fires only for identical data on a modified record, and the check on probes is skipped once data has been set. The exact firing condition is proved.)", "quantifier": "every state and packet", "why_tests_cant": "all packets and states", "anchors": ["libmdnsd/mdnsd.c: mdnsd_in", "libmdnsd/mdnsd.c: _conflict", "libmdnsd/mdnsd.h: mdnsd_unique"]}
{"id": "C32", "title": "Each set of data is announced four times", "statement": "After mdnsd_set_* on a shared or verified record, if nothing else happens to it, the record appears in exactly four announcements, and never again on the announce queue until it is updated.", "quantifier": "every history of other calls", "why_tests_cant": "unbounded interleavings", "anchors": ["libmdnsd/mdnsd.c: _r_publish", "libmdnsd/mdnsd.c: mdnsd_out"]}
{"id": "C33", "title": "Withdrawn records say goodbye once and disappear", "statement": "When a record with TTL 0 is sent from a reply or announce queue it is freed and no longer published, queued or referenced; a withdrawn, announced record stays queued until it is sent. (Refuted when a service-enumeration query arrives before the goodbye is sent: the queue entry is dropped without sending.)", "quantifier": "every reachable state", "why_tests_cant": "history dependent", "anchors": ["libmdnsd/mdnsd.c: mdnsd_done", "libmdnsd/mdnsd.c: _r_out", "libmdnsd/mdnsd.c: mdnsd_out"]}
{"id": "C34", "title": "Shutdown says goodbye for every record", "statement": "After mdnsd_shutdown (with empty probing, paused and announce queues) the following mdnsd_out messages contain every published record with TTL 0 exactly once, as long as every record fits the frame, and then nothing.", "quantifier": "every set of published records and every frame size", "why_tests_cant": "unbounded number of records and packets", "anchors": ["libmdnsd/mdnsd.c: mdnsd_shutdown", "libmdnsd/mdnsd.c: _r_out", "libmdnsd/mdnsd.c: mdnsd_out"]}
{"id": "C35", "title": "Responses respect the frame size", "statement": "No message produced by mdnsd_out is larger than the frame size given to mdnsd_new. (Refuted: the size estimate ignores the owner name, and probes and queries are not limited at all. Proved after every sequence of calls: a multicast response exceeds the frame size by at most 261 bytes, and every message by at most that unless it is no larger than 12 bytes, 260 for each registered query and the size of the records probed for or promised.)", "quantifier": "every reachable state and frame size", "why_tests_cant": "sizes depend on the compression state", "anchors": ["libmdnsd/mdnsd.c: mdnsd_out", "libmdnsd/mdnsd.c: _r_out", "libmdnsd/mdnsd.c: _ar", "libmdnsd/mdnsd.c: _rr_len"]}
{"id": "C36", "title": "Message sections are built in order and agree with the header", "statement": "Every message produced by mdnsd_out is built question, answer, authority, additional in this order; multicast responses have QR and AA set, no question and no authority; queries and probes have QR and AA clear and no additional record.", "quantifier": "every reachable state", "why_tests_cant": "history dependent", "anchors": ["libmdnsd/mdnsd.c: mdnsd_out"]}
{"id": "C37", "title": "The cache-flush bit marks exactly the unique records", "statement": "In multicast responses a record carries the cache-flush bit iff it was created by mdnsd_unique; probes, queries and unicast answers never set it in the question, authority or answer section.", "quantifier": "every reachable state", "why_tests_cant": "history dependent", "anchors": ["libmdnsd/mdnsd.c: mdnsd_out", "libmdnsd/mdnsd.c: _r_out", "libmdnsd/mdnsd.c: _ar"]}
{"id": "C38", "title": "Additional records are relevant and not repeated", "statement": "With at most 64 records in the message, no record is both an answer and an additional record nor twice an additional record, and every additional record is a published SRV/TXT/A/AAAA record reachable from an answered PTR or SRV as RFC 6763 section 12 prescribes.", "quantifier": "every reachable state", "why_tests_cant": "history dependent", "anchors": ["libmdnsd/mdnsd.c: _additional", "libmdnsd/mdnsd.c: _ar", "libmdnsd/mdnsd.c: _ar_addr"]}
{"id": "C39", "title": "Unicast replies go to the requester with its id", "statement": "A query from a port other than 5353 that matches a record and causes no conflict yields exactly one unicast message per matching question, addressed to the sender, echoing the query id.", "quantifier": "every state and packet", "why_tests_cant": "all packets and states", "anchors": ["libmdnsd/mdnsd.c: mdnsd_in", "libmdnsd/mdnsd.c: _u_push", "libmdnsd/mdnsd.c: mdnsd_out"]}
{"id": "C40", "title": "Draining output terminates", "statement": "At a fixed time only finitely many consecutive mdnsd_out calls return non-zero.", "quantifier": "every reachable state", "why_tests_cant": "needs a termination measure", "anchors": ["libmdnsd/mdnsd.c: mdnsd_out", "libmdnsd/mdnsd.c: process_out"]}
{"id": "C41", "title": "The cache never holds duplicates", "statement": "No two cache entries have the same name, type and record data, for any sequence of received packets.", "quantifier": "every sequence of packets and clock readings", "why_tests_cant": "unbounded histories", "anchors": ["libmdnsd/mdnsd.c: _cache"]}
{"id": "C42", "title": "Cache entries come from received answers", "statement": "Every cache entry's name, type and data were in the answer section of a response received earlier from a non-local address, and its expiry time is receipt time + TTL/2 + 8 of a receipt of that record.", "quantifier": "every history", "why_tests_cant": "unbounded histories", "anchors": ["libmdnsd/mdnsd.c: _cache", "libmdnsd/mdnsd.c: mdnsd_in"]}
{"id": "C43", "title": "Goodbye and cache-flush remove entries", "statement": "After processing an answer with TTL 0 no entry with its name, type and data remains; after processing an answer with the cache-flush class every entry of that name and type other than the received record is gone; entries of other names survive unless they are expired.", "quantifier": "every cache content and record", "why_tests_cant": "all cache contents", "anchors": ["libmdnsd/mdnsd.c: _cache", "libmdnsd/mdnsd.c: _c_expire"]}
{"id": "C44", "title": "Cached answers are not used after their TTL", "statement": "mdnsd_list never returns a record whose TTL has elapsed. (Refuted: TTL below 16 is extended and expired entries stay until the bucket is touched or the daily sweep; proved that the sweep removes every entry past its expiry time, and that no entry is left a day after it when mdnsd_out has nothing to send and the clock does not run back.)", "quantifier": "every history", "why_tests_cant": "unbounded histories", "anchors": ["libmdnsd/mdnsd.c: mdnsd_list", "libmdnsd/mdnsd.c: _cache", "libmdnsd/mdnsd.c: _gc", "libmdnsd/mdnsd.c: _c_expire"]}
{"id": "C45", "title": "Queries are told of new answers and of expiry", "statement": "When a response brings a record not yet cached whose name and type equal a registered query's, that query's callback is called exactly once with the record's data; when such an entry is removed it is called with TTL 0; refreshes call nothing; callbacks are only ever called for registered queries with matching name and type.", "quantifier": "every history", "why_tests_cant": "unbounded histories", "anchors": ["libmdnsd/mdnsd.c: _cache", "libmdnsd/mdnsd.c: _q_answer", "libmdnsd/mdnsd.c: _c_expire", "libmdnsd/mdnsd.c: mdnsd_query"]}
{"id": "C46", "title": "A query sees answers that are already cached", "statement": "After mdnsd_query the callback is called for matching records already in the cache ('immediate or anytime after'). (Refuted: the entries are only associated with the query.)", "quantifier": "every cache content", "why_tests_cant": "all cache contents", "anchors": ["libmdnsd/mdnsd.c: mdnsd_query", "libmdnsd/mdnsd.h: mdnsd_query"]}
{"id": "C47", "title": "ANY queries are answered", "statement": "A registered query of type ANY is told of every new record of that name. (Refuted: received records are matched by exact type.)", "quantifier": "every received record", "why_tests_cant": "all packets", "anchors": ["libmdnsd/mdnsd.c: _cache", "libmdnsd/mdnsd.c: _q_next"]}
{"id": "C48", "title": "Unanswered queries are asked three times and then rest", "statement": "A new query is asked in at most three messages, one and two seconds apart, before it is reset to wait for the expiry of its cached answers.", "quantifier": "every clock schedule", "why_tests_cant": "all schedules", "anchors": ["libmdnsd/mdnsd.c: mdnsd_out", "libmdnsd/mdnsd.c: _q_reset"]}
{"id": "C49", "title": "mdnsd_sleep returns a valid delay", "statement": "The returned timeval is non-negative and normalised (0 <= usec < 1000000). (Refuted: usec can be exactly 1000000; proved <= 1000000 and non-negative.)", "quantifier": "every reachable state and clock reading", "why_tests_cant": "boundary reached only at exact microsecond coincidences", "anchors": ["libmdnsd/mdnsd.c: mdnsd_sleep"]}
{"id": "C50", "title": "mdnsd_sleep does not oversleep work that is due", "statement": "If some queued reply, probe, announcement or query is due, mdnsd_sleep returns zero as long as no queue of higher priority is waiting; in particular replies queued for immediate sending always yield zero.", "quantifier": "every reachable state and clock reading", "why_tests_cant": "all timings", "anchors": ["libmdnsd/mdnsd.c: mdnsd_sleep", "libmdnsd/mdnsd.c: mdnsd_out"]}
{"id": "C51", "title": "Published records are re-announced before their TTL runs out", "statement": "Every published record is queued for re-announcement before its TTL elapses since it was last sent. (Refuted: only the first record of each hash bucket is considered; proved for those.)", "quantifier": "every reachable state", "why_tests_cant": "depends on hash collisions and history", "anchors": ["libmdnsd/mdnsd.c: mdnsd_sleep"]}
{"id": "C52", "title": "Shared answers are delayed 20-120 ms", "statement": "A reply for a shared record is delayed by 20 to 120 milliseconds. (Refuted: the delay is 20 to 119 microseconds, which is proved exactly.)", "quantifier": "every clock reading", "why_tests_cant": "all clock readings", "anchors": ["libmdnsd/mdnsd.c: _r_send"]}
{"id": "C53", "title": "mdnsd_set_addresses_for_host sets exactly the given addresses", "statement": "If no withdrawal for this host is pending, then after mdnsd_set_addresses_for_host(host, addrs) the non-withdrawn A records of host carry exactly the addresses addrs, without duplicates if there were none; records of other names or types are unchanged; calling it again changes nothing. (Refuted if a withdrawal of one of the addresses is pending: the address is lost.)", "quantifier": "every reachable state, host and address list", "why_tests_cant": "unbounded address lists and histories", "anchors": ["libmdnsd/mdnsd.c: _update_addresses_for_host", "libmdnsd/mdnsd.c: mdnsd_set_addresses_for_host"]}
{"id": "C54", "title": "records_clear leaves nothing behind", "statement": "After records_clear no record is published, queued or referenced by a pending unicast reply.", "quantifier": "every reachable state", "why_tests_cant": "history dependent", "anchors": ["libmdnsd/mdnsd.c: records_clear"]}
{"id": "C55", "title": "Nothing is published before data is set", "statement": "A record created by mdnsd_shared or mdnsd_unique appears in no message until one of the mdnsd_set_* functions was called on it. (Refuted: probes and TTL refresh send records without data, producing malformed packets.)", "quantifier": "every history", "why_tests_cant": "unbounded histories", "anchors": ["libmdnsd/mdnsd.c: mdnsd_sleep", "libmdnsd/mdnsd.c: mdnsd_out", "libmdnsd/mdnsd.c: _a_copy", "libmdnsd/mdnsd.h: mdnsd_set_raw"]}
{"id": "C56", "title": "A packet is interpreted from its own bytes only", "statement": "The effect of a received datagram does not depend on datagrams received before it in the same mdnsd_step, other than through the daemon's state. (Refuted: the receive buffer is cleared once per step and the parser ignores the datagram length.)", "quantifier": "every sequence of datagrams", "why_tests_cant": "depends on buffer residue", "anchors": ["libmdnsd/mdnsd.c: process_in", "libmdnsd/1035.c: message_parse"]}
{"id": "C57", "title": "Configuration lines are read within their buffer", "statement": "Reading a configuration line never touches memory outside the line buffer. (Refuted for a blank line: chomp reads before the buffer; proved for every line with another character.)", "quantifier": "every line", "why_tests_cant": "all lines", "anchors": ["src/conf.c: chomp", "src/conf.c: read_line"]}
{"id": "C58", "title": "Host name disambiguation fits and is effective", "statement": "For every host name and conflict counter the host name buffer stays NUL-terminated within its size; for a counter above 1 the name ends in '-' and the counter in decimal (the name being cut so that it fits), and names of up to 243 bytes differ from the original. (A 254-byte name that already ends in the suffix is not changed: refuted.)", "quantifier": "every host name and counter", "why_tests_cant": "all lengths", "anchors": ["src/conf.c: conf_init"]}
{"id": "C59", "title": "Service file keywords", "statement": "In a .service file the value of each keyword is that of its last line, independent of unrelated lines; at most 42 txt lines are kept, in order. (The port is stored even if it is invalid: refuted.)", "quantifier": "every sequence of lines", "why_tests_cant": "unbounded files", "anchors": ["src/conf.c: parse", "src/conf.c: read_line"]}
{"id": "C60", "title": "The IPv6 address of an interface is the best available", "statement": "After scanning any list of interface addresses the IPv6 address recorded for an interface has the highest preference (global > unique local > site local > link local) among those listed for it, and is one of them, regardless of order.", "quantifier": "every list of interface addresses, in every order", "why_tests_cant": "all orders and lengths", "anchors": ["src/addr.c: iface_init"]}
{"id": "C61", "title": "An interface is reported changed iff its addresses changed", "statement": "After a rescan an interface that is still present is flagged changed iff the recorded IPv4 or IPv6 address differs from the previous scan's. (An interface that vanished is never flagged, so it is never torn down: refuted.)", "quantifier": "every pair of consecutive scans", "why_tests_cant": "all address lists", "anchors": ["src/addr.c: iface_init", "src/addr.c: mark", "src/addr.c: sweep", "src/mdnsd.c: setup_iface"]}
{"id": "C62", "title": "strlcpy", "statement": "strlcpy copies at most size-1 bytes, NUL-terminates when size>0, writes nothing past dst[size-1], returns strlen(src), and the copy equals src iff the return value is less than size.", "quantifier": "every string, size and destination content", "why_tests_cant": "all strings and sizes", "anchors": ["lib/strlcpy.c: strlcpy"]}
{"id": "C63", "title": "Socket address port accessors", "statement": "inet_set_port followed by inet_port returns the port for both families and preserves family and address.", "quantifier": "every address and port", "why_tests_cant": "all addresses", "anchors": ["libmdnsd/inet.c: inet_set_port", "libmdnsd/inet.c: inet_port"]}
{"id": "C64", "title": "The main loop wakes up in time for every interface", "statement": "The select timeout never exceeds the delay requested by any interface. (Refuted: only whole seconds are compared; proved up to one second.)", "quantifier": "every list of interface delays", "why_tests_cant": "all combinations", "anchors": ["src/mdnsd.c: main"]}
{"id": "C65", "title": "Every string the key/value table copies is freed exactly once", "statement": "For every sequence of xht_set and xht_store calls followed by xht_free, every key/value copy made by xht_store is freed exactly once: either when its entry is overwritten or by xht_free; nothing else is freed.", "quantifier": "every sequence of operations, every table size", "why_tests_cant": "leaks and double frees depend on the whole history of overwrites and node reuse", "anchors": ["libmdnsd/xht.c: _xht_set", "libmdnsd/xht.c: xht_store", "libmdnsd/xht.c: xht_free"]}
{"id": "C66", "title": "mdnsd_out never writes past the message buffer", "statement": "Every message mdnsd_out builds fits the packet buffer of struct message. (Proved with a frame size of at most 65274 while the registered queries, at 260 bytes each, and the records probed for or promised fit the buffer; refuted without: a program with enough registered queries makes mdnsd_out store past the buffer.)", "quantifier": "every reachable state and frame size", "why_tests_cant": "depends on an unbounded number of records and queries", "anchors": ["libmdnsd/mdnsd.c: mdnsd_out", "libmdnsd/1035.c: message_qd", "libmdnsd/1035.h: MAX_PACKET_LEN"]}
{"id": "C67", "title": "Probes are 250 ms and announcements 2 s apart", "statement": "Two messages with probes are at least 250 ms apart unless a unique record was made in between. Two messages with announcements are at least two seconds apart if in between the program neither sets data nor withdraws records and no datagram arrives. (The unconditional claim is refuted: a query for a record that is still being announced makes its next announcement due at once.)", "quantifier": "every history of calls and clock values, any number of records", "why_tests_cant": "the timers are shared by all records and moved by almost every call", "anchors": ["libmdnsd/mdnsd.c: mdnsd_out", "libmdnsd/mdnsd.c: mdnsd_unique", "libmdnsd/mdnsd.c: _r_send", "libmdnsd/mdnsd.c: _r_publish"]}
{"id": "C68", "title": "mdnsd_step is nothing but receive, mdnsd_in, send, mdnsd_sleep", "statement": "One call of mdnsd_step has exactly the effect of a sequence of calls of mdnsd_in, one per datagram received and in that order, then of mdnsd_out, one per datagram sent, and a last mdnsd_sleep; the packets handed to sendto are exactly the messages mdnsd_out gave. So every property of histories of those calls holds for programs that only use mdnsd_step. It returns 1 if receiving failed, in which case nothing is sent, 2 if sending failed, and otherwise 0. The send loop ends whenever the clock stands still and every sendto succeeds.", "quantifier": "every reachable state, every sequence of datagrams and of receive and send failures, every clock", "why_tests_cant": "unbounded number of datagrams in and out per call and arbitrary bytes in them", "anchors": ["libmdnsd/mdnsd.c: mdnsd_step", "libmdnsd/mdnsd.c: process_in", "libmdnsd/mdnsd.c: process_out"]}
{"id": "C69", "title": "What one host sends is what another host receives", "statement": "The bytes of any message mdnsd_out builds, whether unicast or multicast, query, probe, announcement, answer or goodbye, parse back to exactly its questions and records, in the same sections and order, if its names and data are legal, its names end in one common top-level label, and it has at most 4096 bytes; and a host that receives them as a datagram acts on exactly that message.", "quantifier": "every reachable state of the sender and every state of the receiver, any number of records", "why_tests_cant": "depends on all published names and data and on where compression happens", "anchors": ["libmdnsd/mdnsd.c: mdnsd_out", "libmdnsd/mdnsd.c: process_in", "libmdnsd/1035.c: message_packet", "libmdnsd/1035.c: message_parse"]}
{"id": "C70", "title": "Published records become known to other hosts", "statement": "When a packet that shows a record as an answer reaches another host that is not shut down, the record is in that host's cache afterwards, with the same name, type and data and not expired, unless a later answer of the packet says goodbye or flushes its name and type; and the callback of a query for it is called if the record was not yet in the cache. (Without the exception it is refuted: of two unique records of the same name and type in one packet only the last is kept.)", "quantifier": "every reachable state of both hosts, every message of the sender", "why_tests_cant": "depends on both hosts' histories and on all records of the message", "anchors": ["libmdnsd/mdnsd.c: mdnsd_out", "libmdnsd/mdnsd.c: mdnsd_in", "libmdnsd/mdnsd.c: _cache", "libmdnsd/mdnsd.c: _q_answer"]}
{"id": "C71", "title": "Reading netlink messages", "statement": "Whatever the kernel sends in a datagram, reading it never touches memory outside the receive buffer, and it tells of a change iff some message of the datagram announces a new or removed address or link before the end marker. (Proved for datagram sizes that are a multiple of 4; refuted for others.)", "quantifier": "every datagram", "why_tests_cant": "all byte strings and sizes", "anchors": ["src/netlink.c: netlink_read"]}
{"id": "C72", "title": "The log level option", "statement": "Each level name, in any case, and each number gives the level it stands for; anything else is an error. (Refuted: an unknown word is taken as level 0.)", "quantifier": "every argument string", "why_tests_cant": "all strings", "anchors": ["libmdnsd/log.c: mdnsd_log_level"]}
{"id": "C73", "title": "The .service files are published as they say", "statement": "After the .service files are loaded into a daemon without records, every service has its records: the DNS-SD type listing PTR, the PTR of its type to its instance, the SRV with its port and target, a TXT with exactly its key=value lines, the CNAME if it has one, and an A or AAAA record for exactly the addresses of the interface. Every record published belongs to one of the services, and none but addresses is there twice. Loading into any daemon is free of memory errors.", "quantifier": "Every list of services whose instances are different, whose names have up to 255 bytes and whose types, hosts and aliases are different names; every host name; every set of interface addresses; every time.", "why_tests_cant": "The number of services and their names are unbounded, and records sharing a hash bucket interact; a test sees a few names.", "anchors": ["src/conf.c: load", "src/conf.c: record", "src/conf.c: conf_init", "libmdnsd/mdnsd.c: mdnsd_find", "libmdnsd/mdnsd.c: mdnsd_record_next", "libmdnsd/mdnsd.c: mdnsd_set_interface_addresses"]}
{"id": "C74", "title": "Reload and exit use existing contexts only", "statement": "In every sequence of scans, conflicts, socket errors and reloads, reloading and exiting never dereference the context of an interface that has none. (Refuted for an interface whose only address is 0.0.0.0 or ::.)", "quantifier": "every run of the main program", "why_tests_cant": "all histories of interface changes", "anchors": ["src/mdnsd.c: main", "src/mdnsd.c: setup_iface", "src/mdnsd.c: free_iface", "src/addr.c: iface_init"]}
{"id": "C75", "title": "Answer callbacks may call the library", "statement": "A program whose answer callbacks register and remove queries (mdnsd_query), also the one they are called for, never makes the daemon use freed memory or a null pointer, whatever is received; and the program's state is the result of its callbacks being called one after the other with the recorded answers. (Refuted for a callback that removes the query it is called for and also returns -1: null pointer or use after free. Proved for callbacks that do not both remove a query and return -1.)", "quantifier": "every program (callbacks as functions of its state), every history of calls and received messages", "why_tests_cant": "all callback behaviours and all interleavings with expiry", "anchors": ["libmdnsd/mdnsd.c: _q_answer", "libmdnsd/mdnsd.c: _c_expire", "libmdnsd/mdnsd.c: _cache", "libmdnsd/mdnsd.c: mdnsd_query", "libmdnsd/mdnsd.c: mdnsd_out", "libmdnsd/mdnsd.h: mdnsd_query"]}
{"id": "C76", "title": "A registered query is asked", "statement": "A query that becomes registered, by the program or by a callback during mdnsd_in or mdnsd_out, is asked: when mdnsd_out is called and has nothing else to send, the question is in this message or was in one since. (The clock is past 0 and not set back.)", "quantifier": "every program, every history", "why_tests_cant": "all moments a query may be registered at, including while the list of queries is walked", "anchors": ["libmdnsd/mdnsd.c: mdnsd_query", "libmdnsd/mdnsd.c: mdnsd_out", "libmdnsd/mdnsd.c: _q_reset"]}
{"id": "C77", "title": "mquery never does undefined behaviour", "statement": "Whatever datagrams arrive, in whatever order and at whatever times, a turn of mquery's main loop (mdnsd_sleep, recvfrom, mdnsd_in, mdnsd_out, sendto) reads and writes inside its objects and does not dereference NULL or freed memory.", "quantifier": "every session of mquery, every datagram, every reaction of the sockets, both answer callbacks", "why_tests_cant": "all packets from anybody on the network, and callbacks that register queries while the library works", "anchors": ["src/mquery.c: main", "src/mquery.c: ans", "src/mquery.c: ans_dev"]}
{"id": "C78", "title": "mquery -D collects devices and addresses", "statement": "The devices of mquery -D are exactly the hosts for which an address was told, each once, with the first eight different addresses in the order of arrival (names have at most 255 characters, the limit of DNS).", "quantifier": "every session of mquery -D, every sequence of answers", "why_tests_cant": "all orders and repetitions of answers", "anchors": ["src/mquery.c: find_or_create_device", "src/mquery.c: device_add_addr", "src/mquery.c: ans_dev"]}
{"id": "C79", "title": "mquery -D collects services", "statement": "The services of mquery -D are exactly the instances that were told of by a pointer of a service type, a SRV or a TXT record, each once; host and port are those told first, product and version the first ones among the attributes, cut to 63 characters.", "quantifier": "every session of mquery -D, every sequence of answers", "why_tests_cant": "all orders and repetitions of answers", "anchors": ["src/mquery.c: find_or_create_instance", "src/mquery.c: ans_dev"]}
{"id": "C80", "title": "mquery -D follows what it finds", "statement": "mquery -D asks for the instances of every service type found, for SRV and TXT of every instance found, and for A and AAAA of every host found.", "quantifier": "every session of mquery -D, every sequence of answers", "why_tests_cant": "all orders in which types, instances and hosts become known", "anchors": ["src/mquery.c: ans_dev", "libmdnsd/mdnsd.c: mdnsd_query"]}
{"id": "C81", "title": "The table of mquery -D", "statement": "mquery -D prints for every device, and for nothing else, a line with name, first address and the product of one of its services if one has a product, and a line for each further address; the columns are aligned and at least two spaces apart.", "quantifier": "every session of mquery -D", "why_tests_cant": "all lengths of names, addresses and products", "anchors": ["src/mquery.c: print_devices", "src/mquery.c: shortname"]}
{"id": "C82", "title": "mquery -d shows the device asked for", "statement": "mquery -d HOST shows exactly the devices whose name is HOST, with or without the .local suffix, each with its addresses and with all services on it.", "quantifier": "every session of mquery -D, every HOST", "why_tests_cant": "all host names", "anchors": ["src/mquery.c: matches_detail", "src/mquery.c: print_device_detail"]}
{"id": "C83", "title": "mquery -d shows the service type", "statement": "For an instance NAME._app._proto.domain mquery -d shows _app._proto.", "quantifier": "every instance name, application, protocol and domain", "why_tests_cant": "all names", "anchors": ["src/mquery.c: print_device_detail"]}
{"id": "C84", "title": "mquery -T ends after two quiet seconds", "statement": "With -T, mquery waits at most a second at a time, goes on while datagrams arrive, and ends with the first turn that ends two seconds or more after the last datagram, not before.", "quantifier": "every session with -T, every arrival of datagrams", "why_tests_cant": "all patterns of arrival", "anchors": ["src/mquery.c: main"]}
{"id": "C85", "title": "mquery -w ends after the given time", "statement": "With -w SEC, mquery ends when SEC seconds have passed, not before.", "quantifier": "every session with -w", "why_tests_cant": "all sleeping times of the library", "anchors": ["src/mquery.c: main", "libmdnsd/mdnsd.c: mdnsd_sleep"]}
{"id": "C86", "title": "mquery takes the interface of the default route", "statement": "Without -i, mquery uses the interface of the first default route that is up, skipping tunnels.", "quantifier": "every routing table", "why_tests_cant": "all tables", "anchors": ["src/mquery.c: getifname"]}
{"id": "C87", "title": "mquery lists what it finds", "statement": "Without -s and -D, mquery lists in order every name a pointer was found to have with the address it came from, and asks for the pointers of each name found under the name given; names that are gone are not listed as found.", "quantifier": "every session of mquery", "why_tests_cant": "all orders of answers and withdrawals", "anchors": ["src/mquery.c: ans"]}
{"id": "C88", "title": "What is due is sent", "statement": "If no reply waits to be sent, the first call of mdnsd_out after mdnsd_unique probes for the new record; every record being probed for is probed again by the first call 250 ms after the last message with probes, until it goes on to be announced; and if no name is being probed for, a record whose data has been set is announced by the next call of mdnsd_out unless the message is full.", "quantifier": "every reachable state, every history and clock schedule, any number of records", "why_tests_cant": "one due time is shared by all records and moved by other calls", "anchors": ["libmdnsd/mdnsd.c: mdnsd_unique", "libmdnsd/mdnsd.c: mdnsd_out", "libmdnsd/mdnsd.c: _r_publish"]}
{"id": "C89", "title": "The known answers of a query are true and complete", "statement": "Every known answer in a query sent by mdnsd_out belongs to a question of that message and a registered query, was brought by a response from another host of whose TTL less than half has passed, and carries a TTL that is at most the time it has left; and every answer the cache holds for the question is listed. (Refuted for TTLs below 15, which are overstated, and for completeness: an answer that has been held too long hides the ones behind it. Proved otherwise.)", "quantifier": "every history of calls, packets and clock values, any cache", "why_tests_cant": "depends on the order in which answers arrived and on when", "anchors": ["libmdnsd/mdnsd.c: mdnsd_out", "libmdnsd/mdnsd.c: _cache"]}
{"id": "C90", "title": "mquery does not flood the network", "statement": "However many answers arrive, one turn of mquery's loop sends at most two packets per second of the clock, and the loop that sends them ends: of three calls of mdnsd_out in the same second the last returns nothing to send, even though callbacks register further queries meanwhile.", "quantifier": "every session of mquery, every sequence of datagrams and clock values", "why_tests_cant": "callbacks register queries while queries are being sent, so the work grows during the loop", "anchors": ["src/mquery.c: main", "libmdnsd/mdnsd.c: mdnsd_out", "libmdnsd/mdnsd.c: _q_reset"]}
{"id": "C91", "title": "mdnsd_free releases everything once", "statement": "Whatever calls were made before, mdnsd_free reads no freed memory, frees no block twice, and frees every record, query, cache entry, pending reply and string the daemon holds: nothing leaks.", "quantifier": "every reachable daemon state", "why_tests_cant": "all histories of calls and packets", "anchors": ["libmdnsd/mdnsd.c: mdnsd_free", "libmdnsd/mdnsd.c: _free_cached", "libmdnsd/mdnsd.c: _free_record"]}
{"id": "C92", "title": "Questions for published records are answered", "statement": "When another host asks for a published record (announced four times) and does not list it as known, the record waits to be sent, and the next message mdnsd_out makes 119 microseconds later or after that, if no unicast reply waits, is multicast to the group and carries the record with its current data, unless the message is full. (Refuted when the packet, or another one handled in the same mdnsd_step, also holds a service enumeration question: the answer is dropped.)", "quantifier": "every reachable state, every packet with any number of questions and known answers, every later call time", "why_tests_cant": "all combinations of records, questions, known answers and times", "anchors": ["libmdnsd/mdnsd.c: mdnsd_in", "libmdnsd/mdnsd.c: mdnsd_out", "libmdnsd/mdnsd.c: _r_send", "libmdnsd/mdnsd.c: _r_out"]}
{"id": "C93", "title": "Messages go to the group or to who asked", "statement": "Every message mdnsd_out makes is for the mDNS group of the family set last (224.0.0.251 or ff02::fb, port 5353) and has id 0, or it is a response to an address from which, from a port other than 5353, a query with its id was received; it then first repeats a question of that query and answers it. A record never changes its name or type.", "quantifier": "every history of calls and packets since mdnsd_new, every message", "why_tests_cant": "all histories", "anchors": ["libmdnsd/mdnsd.c: mdns_mcast", "libmdnsd/mdnsd.c: mdnsd_out", "libmdnsd/mdnsd.c: _u_push", "libmdnsd/mdnsd.c: mdnsd_set_family"]}
{"id": "C94", "title": "Records hold the data that was set", "statement": "At any time a published record has the name, type and TTL it was made with (or TTL 0 once it was withdrawn) and the data that the mdnsd_set_* calls since then gave it, in their order; no packet, message, other record or other call changes them. A message with the record in it says the arguments of the last setting call: priority, weight, port and target for SRV, the name for mdnsd_set_host, the bytes for mdnsd_set_raw, the address for mdnsd_set_ip and mdnsd_set_ipv6 and mdnsd_set_address.", "quantifier": "every history of calls and packets, every record, every value set", "why_tests_cant": "unbounded histories, record values and interleavings with packets", "anchors": ["libmdnsd/mdnsd.c: mdnsd_set_raw, mdnsd_set_host, mdnsd_set_ip, mdnsd_set_ipv6, mdnsd_set_srv, mdnsd_set_address, mdnsd_set_ipv6_address, _a_copy"]}
{"id": "C95", "title": "Cached answers are asked for again", "statement": "While a query stays registered and an answer to it is cached, the question is asked again in the last seven seconds before the answer expires, so that the answer can be renewed in time.", "quantifier": "every history of calls and packets, every query and answer", "why_tests_cant": "unbounded histories; the time of the next question depends on the whole order of arrivals, questions and expiries", "anchors": ["libmdnsd/mdnsd.c: _q_reset, mdnsd_out, mdnsd_query, _cache"]}
{"id": "C96", "title": "Descriptors of mdnsd are used and closed properly", "statement": "The daemon asks the kernel nothing about a descriptor that is not open at that time: it neither uses nor closes one after it was closed. While it runs, the open descriptors are its netlink socket and the sockets of the interfaces it knows, each once, so none is lost; when it ends normally all are closed.", "quantifier": "every behaviour of the kernel that gives no descriptor that is open already: every failure of socket, bind, reading and writing at any point, every sequence of signals, netlink messages and interface lists", "why_tests_cant": "all failures and schedules of an arbitrary kernel, unbounded runs", "anchors": ["src/mdnsd.c: main, sys_init, setup_iface, free_iface, multicast_socket", "src/mcsock.c: mdns_socket, mdns_socket6", "src/netlink.c: netlink_init, netlink_exit"]}
{"id": "C97", "title": "Packets go through sockets made for one interface", "statement": "Packets are only received from and sent to sockets that, since they were created, were bound to port 5353, told to share it, to send with the configured TTL and to send and listen on one interface only, and that joined the mDNS group there; the sockets kept for an interface are for that interface.", "quantifier": "every behaviour of the kernel, every configured TTL, every history of interfaces, failures and signals", "why_tests_cant": "all failures and schedules of an arbitrary kernel, unbounded runs", "anchors": ["src/mcsock.c: mc_socket, mc_socket6", "src/mdnsd.c: multicast_socket, setup_iface, main"]}
{"id": "C98", "title": "Failures stay with the interface they happen on", "statement": "The daemon ends by itself only if an IPv4 socket cannot be created or bound; IPv6 and netlink are optional. Every interface known has an IPv4 socket, and each turn of the main loop serves every interface in use; one is given up only if reading or writing failed on its own IPv4 socket.", "quantifier": "every behaviour of the kernel, every history of interfaces, failures and signals", "why_tests_cant": "all failures and schedules of an arbitrary kernel, unbounded runs", "anchors": ["src/mdnsd.c: main, setup_iface, sys_init"]}
{"id": "C99", "title": "The daemon does not crash over its interfaces", "statement": "However interfaces come and go, the daemon neither uses a missing mDNS context nor puts a descriptor into an fd_set that has no room for it.", "quantifier": "every behaviour of the kernel, every history of interfaces, failures and signals", "why_tests_cant": "all failures and schedules of an arbitrary kernel, unbounded runs", "anchors": ["src/mdnsd.c: main, setup_iface, free_iface", "src/addr.c: iface_init"]}
{"id": "C100", "title": "Answers say what was received, and from whom", "statement": "Whatever an answer callback is told, of records that came or that went, and whatever mdnsd_list gives, says what a record in a response from another host said: its name, type and all its data, and for PTR, NS and CNAME records the address of the host that sent it.", "quantifier": "every history of calls and packets, every callback behaviour, every answer told or cached", "why_tests_cant": "unbounded histories; answers pass through cache, refreshes, expiry and garbage collection before they are told", "anchors": ["libmdnsd/mdnsd.c: _cache, _q_answer, _c_expire, mdnsd_list"]}
{"id": "C101", "title": "Log messages go where and only if they should", "statement": "After any sequence of calls that set the log level or turn to syslog, a message is seen exactly if its severity is within the level and the level is not none. It goes to syslog once that was asked for, before that warnings and worse go to stderr and the rest to stdout. With the level none nothing at all is printed, and every level that is accepted works.", "quantifier": "every sequence of mdnsd_log_level and mdnsd_log_open calls with any text, every severity", "why_tests_cant": "unbounded call sequences and arbitrary level texts", "anchors": ["libmdnsd/log.c: mdnsd_log_level, mdnsd_log_open, mdnsd_log, mdnsd_log_hex"]}
{"id": "C102", "title": "Packet dumps show the packet", "statement": "A dump shows every byte of a packet in hexadecimal and as a character, a dot for one that cannot be printed, sixteen to a line with its offset. Making it writes to no memory but its own, and it is only made when debugging without syslog.", "quantifier": "every buffer of any length and contents", "why_tests_cant": "buffers of any length; the full last line is one length in sixteen", "anchors": ["libmdnsd/log.c: mdnsd_log_hex"]}
{"id": "C103", "title": "The command line does what the help text says", "statement": "mdnsd starts exactly if all options are acceptable, and ends with status 1 on one that is not. The last host name, interface, TTL and log level count. The TTL is between 1 and 255. It runs in the background unless -n is given, uses syslog unless in the foreground without -s, and reads services from the first operand or /etc/mdns.d.", "quantifier": "every sequence of options with any arguments and operands", "why_tests_cant": "unbounded option lists and arbitrary argument texts", "anchors": ["src/mdnsd.c: main, progname, usage"]}
{"id": "C104", "title": "The PID file names the running daemon", "statement": "While the daemon runs, a successful call leaves its process id in the file, also if the file was removed meanwhile or earlier calls failed. When the daemon ends the file is gone, and no other file and no other process's file is touched. Children do not remove it.", "quantifier": "every sequence of calls, failures of the system and removals by others", "why_tests_cant": "all failure points of the system calls and all interleavings with other processes", "anchors": ["lib/pidfile.c: pidfile, pidfile_cleanup"]}
{"id": "C105", "title": "Responses are never answered", "statement": "A received response (a message with the QR bit set) never makes the daemon reply, ask or announce: no unicast reply is queued, no query is registered or rescheduled, no service enumeration starts, and no record is queued for sending. The one exception is a record whose conflict callback the response caused to be called: it is queued for a goodbye (TTL 0). If no conflict is reported the published records and all queues are exactly as before.", "quantifier": "every reachable daemon, every response message with any answers, every sender address and environment", "why_tests_cant": "It must hold for every response in every state; a storm of two hosts answering each other's responses only shows for particular combinations of records.", "anchors": ["libmdnsd/mdnsd.c: mdnsd_in, _cache, _conflict"]}
{"id": "C106", "title": "Nothing is multicast without a cause, and a cause is spent", "statement": "Between two causes a published record is multicast a bounded number of times. Causes are: a question that asks for it, a conflict over it, a set_* call on it (or an address update of its type or host), done, shutdown, and mdnsd_sleep finding with nothing else to do that its TTL runs out. Without a cause: a record that waits on no queue is never sent and stays that way; a record waiting as a reply is sent at most once; any record is sent at most four times.", "quantifier": "every reachable daemon, every record, every history of calls of any length without a cause for the record", "why_tests_cant": "Quantifies over all call histories: any other query, response, update, timer call or interface change may happen in between, in any order.", "anchors": ["libmdnsd/mdnsd.c: mdnsd_out, mdnsd_in, mdnsd_sleep, _r_out, _r_publish, _r_send, _r_push"]}
{"id": "C107", "title": "No amplification: at most one unicast reply per question", "statement": "A host on a port other than 5353 is sent at most as many messages as it asked questions, over the whole life of the daemon.", "quantifier": "every history of calls from the creation of the daemon, every address", "why_tests_cant": "The bound is on the whole history: every interleaving of queries from any number of hosts with any other calls.", "anchors": ["libmdnsd/mdnsd.c: mdnsd_in, mdnsd_out, _u_push"]}
{"id": "C108", "title": "What one host asks for and another has published is found", "statement": "When a daemon sends a question, and another daemon on the link that has published a matching record receives the packet, then what the second daemon sends next (at least 119 microseconds later, and if the message is not full) goes to the multicast group, and when the first daemon receives that packet, the callback registered for the name and type is told of the record with its content and an expiry in the future, unless the cache held it already. Both directions go through the bytes of the packets.", "quantifier": "every pair of reachable daemons, every published record, every message in which the question and the answer travel, any calls the asking host made in between", "why_tests_cant": "It composes the encoder, the decoder, the receiver and the sender of two hosts over all their states; a test tries a handful of pairs.", "anchors": ["libmdnsd/mdnsd.c: mdnsd_query, mdnsd_out, mdnsd_in, _cache, _q_answer", "libmdnsd/1035.c: message_parse, message_packet"]}
{"id": "C109", "title": "What one host withdraws the other forgets", "statement": "When a daemon sends a goodbye (TTL 0) for a record and another daemon receives the packet, the cache of the second daemon no longer holds the record, and every callback registered for its name and type before and after is told of it with TTL 0.", "quantifier": "every pair of daemons, every history of the receiving one that registers names exactly, every message that carries the goodbye", "why_tests_cant": "Ranges over all states of both hosts and all messages the goodbye can travel in.", "anchors": ["libmdnsd/mdnsd.c: mdnsd_done, mdnsd_out, mdnsd_in, _cache, _c_expire, _q_answer"]}
{"id": "C110", "title": "SIGINT, SIGQUIT and SIGTERM end the daemon", "statement": "Once the handlers are installed, a termination signal that arrives at any point makes the program exit after a bounded number of its own steps: it waits in select at most once more and reads its configuration at most once more, whatever signals and conflicts come later. Only a signal before the handlers are installed kills it without leaving in order.", "quantifier": "every point of the program at which the signal arrives, every later sequence of signals and conflicts", "why_tests_cant": "The signal can arrive between any two statements; races such as between the test of the flag and select are hit by chance only.", "anchors": ["src/mdnsd.c: done, sig_init, main"]}
{"id": "C111", "title": "SIGHUP and conflicts make the daemon read its configuration anew", "statement": "After SIGHUP, or a conflict found by the library, the configuration is read again before the program waits for the second time, or the program ends; and it is never read again more often than there were such causes.", "quantifier": "every point at which the signal or conflict comes, every later sequence of signals and conflicts", "why_tests_cant": "The window in which a request is lost is a few instructions wide; only an argument over all interleavings finds and bounds it.", "anchors": ["src/mdnsd.c: reconf, mdnsd_conflict, sig_init, main"]}
{"id": "C112", "title": "The memory of the cache is bounded", "statement": "The number of records in the cache is bounded, whatever hosts on the link send. What holds: it is at most the number of answers received, and right after the daily sweep at most the number of answers whose time is not over.", "quantifier": "every history of calls; for the refutation every number of records up to the number of IPv4 addresses", "why_tests_cant": "A bound on memory is about all traffic, of any length.", "anchors": ["libmdnsd/mdnsd.c: _cache, _gc, mdnsd_in, mdnsd_out"]}
{"id": "C113", "title": "The services read are those of the *.service files in the given directory", "statement": "Given a directory, the daemon loads exactly the readable files in it whose names end in .service and do not start with a dot, each once, in the order of their names, for both protocols, so that a daemon without records afterwards publishes those services and nothing else. It reports success only if there is such a file and all of them could be read. Given a file it loads that one; given a path with nothing readable it loads nothing and reports failure. False for paths with special characters and for directories whose names end in .service.", "quantifier": "every file system, every path, every host name and counter, every state of both daemons", "why_tests_cant": "The set of files, their names and their contents are unbounded.", "anchors": ["src/conf.c: conf_init, load_all, load, parse"]}
{"id": "C114", "title": "The services in the files reach the caches of other hosts", "statement": "After loading services whose names, texts and addresses DNS can carry, everything the daemon ever says in a response is well formed, whatever packets, conflicts, queries and withdrawals come in between, as long as no call changes the data of the records. Hence every other host that receives such a packet keeps the records in it and answers its own queries from them. False without the condition on names: one service with a label of 64 bytes makes the packets unreadable, so that no host learns of any other service in them.", "quantifier": "every list of services, every set of interfaces, every later history of calls and packets, every receiving host and its state", "why_tests_cant": "Services, histories and the receiver's state are unbounded.", "anchors": ["src/conf.c: record, load", "libmdnsd/mdnsd.c: mdnsd_out, mdnsd_in", "libmdnsd/1035.c: message_rr, message_parse, _host"]}
{"id": "C115", "title": "mquery does what its command line says", "statement": "The first option that mquery does not accept ends it before anything is opened or sent. Otherwise it ends with status 1, leaving nothing open, if there is no interface or no socket to be had; or it has exactly one multicast socket, of the protocol asked for, on the interface last given or that of the default route, with the settings of the options, of several the last. Its first packet goes to the multicast group of that protocol, and whoever reads it finds exactly one question, for the name and type given, or with -D and -d for the list of services. In each turn it calls mdnsd_sleep, then mdnsd_in for each datagram that can be parsed, then mdnsd_out until there is nothing to send, and sends what it is given. It ends with status 0 when a limit of -T or -w is reached, and with 1 when receiving or sending fails. False: an unknown option gives status 0; -D ignores a name; without -s answers of other types than PTR are not shown; a name without its last dot or a type above 65535 is asked for but its answer is not shown.", "quantifier": "every list of options and operands, every routing table, every behaviour of the kernel, every sequence of turns", "why_tests_cant": "Options can be combined and repeated in any order, the kernel can refuse any request, and runs are unbounded.", "anchors": ["src/mquery.c: main, msock, getifname, ans", "src/mcsock.c: multicast_socket"]}
{"id": "C116", "title": "The services survive a change of the addresses", "statement": "When the addresses of an interface change and the daemon loads its .service files again in place, every service keeps its very records: none but addresses is made, removed, changed or probed for again. The hosts of the services then have exactly the addresses of the interface; addresses that stayed keep their records, those that went are withdrawn, or dropped if still being probed for. This can be repeated any number of times. False: an address that goes and comes back before its withdrawal has been sent is lost, and the services have no address although the interface has one.", "quantifier": "every set of services that go together, every reachable daemon that serves them, every old and new set of addresses, every time", "why_tests_cant": "Services, names, states of probing and announcing and changes of the addresses can be combined without bound.", "anchors": ["src/mdnsd.c: setup_iface", "src/conf.c: conf_init, load, record", "libmdnsd/mdnsd.c: mdnsd_set_interface_addresses, mdnsd_set_addresses_for_host"]}
{"id": "C117", "title": "A full reload publishes what the files say, and nothing else", "statement": "When the daemon is told to reload (SIGHUP), whatever it published before, it afterwards serves what the .service files say, with the addresses the interface has. Every record in its later responses is one of those, as loaded or withdrawn, until something else changes its records. False: a service whose file has been removed is withdrawn; other hosts are never told.", "quantifier": "every reachable daemon, whatever it publishes and in whatever state of probing; every set of services that go together; every set of addresses; every later history", "why_tests_cant": "States of the daemon before the reload, sets of services and histories after it are unbounded.", "anchors": ["src/mdnsd.c: main, sys_init", "libmdnsd/mdnsd.c: records_clear", "src/conf.c: conf_init, load, record"]}
{"id": "C118", "title": "The host address is the last one set, in all address records", "statement": "mdnsd_get_address and mdnsd_get_ipv6_address return the address that was set last, zero at first, after any other calls. Setting a new address puts it into every A (AAAA) record and changes nothing else of any record; setting zero withdraws them; setting the same does nothing. False: no address of a host is published twice when addresses are only set with mdnsd_set_addresses_for_host and mdnsd_set_address; every A record holds the address just set; mdnsd_flush empties the cache.", "quantifier": "every history of calls, every address, every set of records", "why_tests_cant": "Any call could touch the setting, and records of any number, name and type exist when it is changed.", "anchors": ["libmdnsd/mdnsd.c: mdnsd_set_address, mdnsd_get_address, mdnsd_set_ipv6_address, mdnsd_get_ipv6_address, mdnsd_flush", "libmdnsd/mdnsd.h: mdnsd_flush"]}
{"id": "C119", "title": "The receive callback hears every answer", "statement": "While a callback is registered with mdnsd_register_receive_callback, it is told every answer of every response of another host, each once and in the order of the packet, goodbyes and records nobody asked for included. It is told nothing while none is registered, after shutdown, by the daemon's own packets or by any other call, and nothing that no packet brought. False: records of the authority and additional sections are told; the known answers of queries are told once each.", "quantifier": "every history of calls and packets, every message and sender", "why_tests_cant": "Any packet may come in any state of records, queries and cache, and any call could tell the callback something.", "anchors": ["libmdnsd/mdnsd.h: mdnsd_register_receive_callback", "libmdnsd/mdnsd.c: mdnsd_register_receive_callback, mdnsd_in"]}
{"id": "C120", "title": "Setting up, serving, reloading and ending an interface is memory safe", "statement": "Whatever mdnsd does for an interface, in whatever order (set it up, create the IPv6 context, read the services anew after SIGHUP or an address change, serve its sockets, drop it), no memory is misused and both contexts stay in states the library's contract allows. While it is served, an interface is dropped exactly when receiving or sending fails on its IPv4 socket. When the interface is dropped, goodbyes are sent for exactly its records and all memory is freed once. False: dropping it while its records are being announced uses freed memory.", "quantifier": "every order of these actions, every configuration on disk without blank lines, every sequence of packets and socket errors", "why_tests_cant": "The order of signals, address changes and packets is arbitrary, and the announcements of the moment decide what dropping the interface does.", "anchors": ["src/mdnsd.c: setup_iface, free_iface, main", "src/conf.c: conf_init", "libmdnsd/mdnsd.c: mdnsd_step, mdnsd_shutdown, mdnsd_free, records_clear"]}
{"id": "C121", "title": "Loops over the interfaces visit each one once, although they may drop it", "statement": "However interfaces are added, searched for, looped over and dropped, no freed memory is used, every loop ends and visits each interface present exactly once in the order in which they came, even if the body drops the interface it is at; a search finds the first interface of that name; when mdnsd ends, all are freed exactly once. (The limits: a body that drops the next interface uses freed memory, and one that searches by name never ends; mdnsd has no such body.)", "quantifier": "every sequence of additions, searches and loops, every choice of what the loops drop", "why_tests_cant": "The iterator keeps its position in a static variable that every search and loop changes; which interfaces fail in the middle of a loop is up to the system.", "anchors": ["src/addr.c: iface_iterator, iface_find, iface_free, iface_exit, iface_init", "src/mdnsd.c: main, sys_init, free_iface"]}
{"id": "C122", "title": "mquery -s prints each answer as one line that can be read back", "statement": "For every answer mquery -s prints exactly one line, which holds the type, the name, the seconds until the answer expires (0 when it has) and, by type, the address, the target, the target with port, or the length of the data. No line can come from two answers that differ in any of this. (False for names with spaces; and the seconds are not the TTL of the answer but those until the cache drops it, half of the TTL plus 8.)", "quantifier": "every answer the callback is given, every time", "why_tests_cant": "The types, names, numbers and addresses are arbitrary, and the statement that lines are unambiguous compares all pairs.", "anchors": ["src/mquery.c: ans, type2str"]}
{"id": "C123", "title": "The listing of mquery tells what was found", "statement": "Without -s and -D, mquery prints for every pointer it is told of, withdrawn ones too (C87), one line with the name pointed to and the address of the host that told, in the order of arrival, and nothing else. What was found can be read back from the listing. (False for names with line ends: these are printed as they are, and one pointer makes the lines of two.)", "quantifier": "every session of mquery, every sequence of datagrams, all pairs of sessions", "why_tests_cant": "Names come from the network and are arbitrary bytes; that the listing can be read back compares all pairs of sessions.", "anchors": ["src/mquery.c: ans, main"]}
