{"claims": [
{"property": "C01", "status": "proved", "theorems": ["C01_short_roundtrip", "C01_long_roundtrip"], "note": ""},
{"property": "C02", "status": "proved", "theorems": ["C02_roundtrip", "C02_roundtrip_large", "C02_roundtrip_packet"], "note": "Names must share a final label used nowhere else in them (e.g. local), see C03. Three theorems on size: 4096 bytes without compression, 1435 bytes with it (raw data at most 2660), and one for larger messages."},
{"property": "C03", "status": "partial", "theorems": ["C03_compression_partial", "C03_refuted", "C03_decoding_unique"], "note": "False in general (C03_refuted); proved when no suffix of a name is a strict prefix of a suffix of another name."},
{"property": "C04", "status": "proved", "theorems": ["C04_terminates"], "note": ""},
{"property": "C05", "status": "partial", "theorems": ["C05_writes_partial", "C05_refuted"], "note": "Proved for the 65536 bytes of the structure up to the next member; false for the declared 65535."},
{"property": "C06", "status": "partial", "theorems": ["C06_read_bound_partial", "C06_refuted"], "note": "False for the 65536-byte receive buffer; proved that a buffer of 90117 bytes is never overrun."},
{"property": "C07", "status": "proved", "theorems": ["C07_disjoint"], "note": ""},
{"property": "C08", "status": "proved", "theorems": ["C08_header"], "note": ""},
{"property": "C09", "status": "partial", "theorems": ["C09_decoder_partial", "C09_refuted", "C09_refuted_chain"], "note": "False for pointers to the root label and for pointers to pointers; proved for all other encodings within the decoder's pointer limit."},
{"property": "C10", "status": "partial", "theorems": ["C10_extent_partial", "C10_refuted"], "note": "False when the announced length is not the natural one."},
{"property": "C100", "status": "proved", "theorems": ["C100_cached", "C100_told"], "note": ""},
{"property": "C101", "status": "partial", "theorems": ["C101_partial", "C101_refuted_level", "C101_refuted_none"], "note": "for levels below 30; refuted for larger ones and for packet dumps with level none"},
{"property": "C102", "status": "partial", "theorems": ["C102_partial", "C102_any", "C102_quiet", "C102_refuted"], "note": "the characters of a full last line are lost; the model holds for buffers below 16 MB, beyond which the offset has more digits"},
{"property": "C103", "status": "partial", "theorems": ["C103_exits", "C103_started", "C103_number", "C103_no_number", "C103_level", "C103_name", "C103_refuted_ttl", "C103_refuted_text", "C103_refuted_level", "C103_refuted_status", "C103_refuted_syslog"], "note": "what the code does is proved; five points where it differs from the help text or takes wrong arguments are refuted"},
{"property": "C104", "status": "partial", "theorems": ["C104_holds", "C104_line", "C104_path", "C104_works", "C104_removed", "C104_failed", "C104_keeps", "C104_child", "C104_refuted_two", "C104_refuted_name", "C104_refuted_child"], "note": "for one daemon; refuted for two daemons, other names, and children that call it"},
{"property": "C105", "status": "proved", "theorems": ["C105_silent"], "note": "Holds for every response. Which records a response conflicts with is the subject of C31; note that the test fires on equal data (section 6)."},
{"property": "C106", "status": "proved", "theorems": ["C106_silent", "C106_once", "C106_four"], "note": "Counting needs that no other record has the same name, type, TTL and data (singular), otherwise the messages do not tell which was sent."},
{"property": "C107", "status": "proved", "theorems": ["C107_few"], "note": ""},
{"property": "C108", "status": "proved", "theorems": ["C108_found"], "note": "The record is published or verified, announced four times and not paused; the answering message is not full; the answer is not in the asking host's cache yet."},
{"property": "C109", "status": "proved", "theorems": ["C109_forgotten"], "note": "The receiving host has not registered queries of type ANY (asks_exact); the message does not carry the record with a TTL as well."},
{"property": "C11", "status": "proved", "theorems": ["C11_bucket"], "note": "namehash models both _namehash and _xhter with 64-bit unsigned long and conversion to int."},
{"property": "C110", "status": "proved", "theorems": ["C110_stops", "C110_goes_on", "C110_killed", "C110_asked", "C110_woken"], "note": "C110_stops bounds what still happens, C110_goes_on says a program that has not ended can take a step, C110_asked that only these signals make it leave, C110_woken that a signal ends the waiting."},
{"property": "C111", "status": "partial", "theorems": ["C111_reload_partial", "C111_caused", "C111_refuted_lost"], "note": "False when SIGHUP comes between the reading of the configuration and reload = 0 (C111_refuted_lost), proved for all other points."},
{"property": "C112", "status": "partial", "theorems": ["C112_partial", "C112_fresh_partial", "C112_refuted"], "note": "No bound independent of the traffic exists (C112_refuted); proved: at most the answers received, and after a sweep those still valid."},
{"property": "C113", "status": "partial", "theorems": ["C113_directory_partial", "C113_published_partial", "C113_file", "C113_missing", "C113_safe", "C113_refuted_other", "C113_refuted_none", "C113_refuted_nested"], "note": "Proved for paths without * ? [ \\ or a leading ~, with *.service entries that are text files of lines C59 covers, or unreadable; C113_published_partial under the conditions of C73. False for special characters and for directories named x.service."},
{"property": "C114", "status": "partial", "theorems": ["C114_sound", "C114_heard", "C114_multicast", "C114_refuted"], "note": "Proved for services whose names end in local and are legal DNS names, whose texts fit and whose addresses are not zero, under the conditions of C73. Multicast responses: no condition on the message when frame is at most 1174 (mdnsd uses 1000) and texts have at most 2660 bytes. Unicast responses: at most 4096 bytes without compression or 1435 with it. False for names with longer labels."},
{"property": "C115", "status": "partial", "theorems": ["C115_exits", "C115_starts", "C115_asks", "C115_loop_partial", "C115_listing_partial", "C115_status", "C115_turn_partial", "C115_refuted_status", "C115_refuted_name", "C115_refuted_shown", "C115_refuted_dot", "C115_refuted_type"], "note": "Proved: exits, socket, interface, settings, first packet, what ends the loop and its packets, and that it goes on safely unless a message is larger than its packet (C77_refuted) or a datagram is not self-contained (C06). What is false is refuted by five theorems. C115_turn_partial gives the exact calls of a turn for self-contained datagrams. The cases are C115_case and C115_case_turn."},
{"property": "C116", "status": "partial", "theorems": ["C116_reload_partial", "C116_first_partial", "C116_refuted"], "note": "Proved unless a name with several pointers shares its bucket of the table of records with a name of another kind, as in C73, and when no address on the interface is being withdrawn; without the latter it is false (C116_refuted). The case is C116_case."},
{"property": "C117", "status": "partial", "theorems": ["C117_reload_partial", "C117_refuted"], "note": "Proved unless a name with several pointers shares its bucket of the table of records with a name of another kind, as in C73. That removed services are withdrawn is false (C117_refuted). The case is C117_case."},
{"property": "C118", "status": "partial", "theorems": ["C118_address", "C118_records", "C118_records6", "C118_refuted_twice", "C118_refuted_same", "C118_refuted_flush"], "note": "What the calls do is proved; three expectations are refuted. The case is C118_case."},
{"property": "C119", "status": "partial", "theorems": ["C119_answers", "C119_only", "C119_quiet", "C119_refuted_sections", "C119_refuted_queries"], "note": "What responses tell and that nothing else does is proved; two expectations are refuted. The case is C119_case."},
{"property": "C12", "status": "proved", "theorems": ["C12_map"], "note": "Allocation failure not modelled."},
{"property": "C120", "status": "partial", "theorems": ["C120_runs_partial", "C120_deeds", "C120_room_partial", "C120_end_partial", "C120_refuted_end"], "note": "Every order of actions is proved to stay within the contract, except for datagrams that are not self-contained, packets that overflow and a clock that outruns mdnsd_out; the end is proved when no announcement comes due, whatever replies still wait, and refuted otherwise. The cases are C120_case_both, C120_case_deeds, C120_case_room, C120_case_end and C120_case_waiting."},
{"property": "C121", "status": "proved", "theorems": ["C121_loops", "C121_end", "C121_refuted_other", "C121_refuted_search"], "note": "All sequences of additions, searches, loops and iface_exit; the two refutations show the limits of the iterator that mdnsd keeps within. The case is C121_case."},
{"property": "C122", "status": "partial", "theorems": ["C122_line", "C122_unambiguous_partial", "C122_refuted_seconds", "C122_refuted_space"], "note": "The line is proved for all answers; unambiguous for names without spaces, refuted with them; that the seconds are the TTL is refuted. The case is C122_case."},
{"property": "C123", "status": "partial", "theorems": ["C123_listing", "C123_readable_partial", "C123_refuted"], "note": "The listing is proved for all sessions; readable for names without line ends, refuted with them. plain_text: inet_ntop gives no parentheses and no line ends."},
{"property": "C13", "status": "proved", "theorems": ["C13_walk"], "note": ""},
{"property": "C14", "status": "proved", "theorems": ["C14_decode"], "note": "Full functional specification of txt2sd on arbitrary bytes, including truncated and lying length bytes."},
{"property": "C15", "status": "proved", "theorems": ["C15_roundtrip", "C15_refuted_long"], "note": "The precondition (entries of at most 255 bytes) is part of the property; C15_refuted_long shows it is needed."},
{"property": "C16", "status": "proved", "theorems": ["C16_encode"], "note": ""},
{"property": "C17", "status": "proved", "theorems": ["C17_calls", "C17_packets"], "note": "Every legal call from every reachable state succeeds; legal also admits settled shutdown, idle withdrawal of addresses, and callbacks returning -1 unless an exhausted query is due in mdnsd_out. Callbacks that call the library: C75."},
{"property": "C18", "status": "proved", "theorems": ["C18_queues"], "note": ""},
{"property": "C19", "status": "partial", "theorems": ["C19_partial", "C19_sends_partial", "C19_address_partial", "C19_refuted_shutdown", "C19_refuted_address"], "note": "Shutdown and the goodbyes are safe whatever waits to be probed or answered, if no announcement comes due (C19_sends_partial, case C19_case_sends); zero address: safe when no address record of that family is queued (C19_case_address); use after free otherwise, with witnesses."},
{"property": "C20", "status": "partial", "theorems": ["C20_partial", "C20_refuted"], "note": "Unregistering is safe and effective in every legal call; refuted for mdnsd_out when a query asked three times is due."},
{"property": "C21", "status": "proved", "theorems": ["C21_find"], "note": ""},
{"property": "C22", "status": "partial", "theorems": ["C22_partial", "C22_refuted"], "note": "Completeness, no repetition; refuted that only the host's records are listed."},
{"property": "C23", "status": "partial", "theorems": ["C23_partial", "C23_refuted"], "note": "Exact condition proved (some registered query shares the bucket); refuted by hash collision."},
{"property": "C24", "status": "proved", "theorems": ["C24_list"], "note": ""},
{"property": "C25", "status": "proved", "theorems": ["C25_own"], "note": "Any state and packet; the interface list is the one kept or, when 5 s old, the one read anew."},
{"property": "C26", "status": "proved", "theorems": ["C26_closed"], "note": "Holds after any further calls."},
{"property": "C27", "status": "proved", "theorems": ["C27_queries"], "note": "Also: no record is lost except one that is being probed (conflict)."},
{"property": "C28", "status": "proved", "theorems": ["C28_suppression"], "note": "Shared and verified unique records."},
{"property": "C29", "status": "partial", "theorems": ["C29_partial", "C29_refuted_unicast", "C29_refuted_additional"], "note": "proved for the answer section of multicast responses; false for unicast replies and the additional section"},
{"property": "C30", "status": "proved", "theorems": ["C30_three", "C30_first"], "note": "C30_three counts, for records no other record looks like; C30_first gives at least three probes without that condition."},
{"property": "C31", "status": "partial", "theorems": ["C31_partial", "C31_sound_partial", "C31_refuted_same", "C31_refuted_other", "C31_refuted_probe", "C31_refuted_duel"], "note": "The claim is false; the exact firing condition for responses and the meaning of every firing are proved, four counterexamples refute the claim, the last with two hosts that hear everything of each other and both end up with the name."},
{"property": "C32", "status": "proved", "theorems": ["C32_four", "C32_due"], "note": "C32_four: at most four, and waiting for another exactly while there were fewer; C32_due: a due announcement is sent unless the message is full."},
{"property": "C33", "status": "partial", "theorems": ["C33_gone", "C33_withdrawn", "C33_stays_partial", "C33_sent", "C33_refuted", "C33_refuted_unset"], "note": "False when a service-enumeration query is answered before the goodbye, and for records whose data was never set; proved otherwise."},
{"property": "C34", "status": "proved", "theorems": ["C34_goodbyes"], "note": "A record fits if header plus the daemon's own estimate of its size is below the frame size. No service-enumeration query may be pending."},
{"property": "C35", "status": "partial", "theorems": ["C35_partial", "C35_response_partial", "C35_room_partial", "C35_parsed", "C35_refuted_response", "C35_refuted_query"], "note": "false as stated; multicast responses exceed the frame size by at most 261 bytes, and every message is bounded by that or by what queries, probes and promised answers need"},
{"property": "C36", "status": "proved", "theorems": ["C36_sections"], "note": ""},
{"property": "C37", "status": "proved", "theorems": ["C37_flush", "C37_others"], "note": ""},
{"property": "C38", "status": "proved", "theorems": ["C38_multicast", "C38_unicast"], "note": ""},
{"property": "C39", "status": "proved", "theorems": ["C39_queued", "C39_sent"], "note": "Questions for service enumeration are not answered by unicast."},
{"property": "C40", "status": "proved", "theorems": ["C40_drains"], "note": "With an explicit bound."},
{"property": "C41", "status": "proved", "theorems": ["C41_cache"], "note": "every pair of entries of every reachable cache"},
{"property": "C42", "status": "proved", "theorems": ["C42_source"], "note": "over histories from mdnsd_new"},
{"property": "C43", "status": "proved", "theorems": ["C43_removes", "C43_spares"], "note": "goodbye and flush for any answer of any response; everything else unexpired stays"},
{"property": "C44", "status": "partial", "theorems": ["C44_partial", "C44_day_partial", "C44_refuted"], "note": "the daily sweep removes every expired entry, so none is left a day after its time when mdnsd_out has nothing to send (C44_day_partial, case C44_case_day); mdnsd_list returning expired entries is refuted by a history"},
{"property": "C45", "status": "proved", "theorems": ["C45_new", "C45_answers", "C45_gone", "C45_only"], "note": "new records for callbacks that do not unregister; several answers reduce to one (C45_answers); removal for histories without ANY queries, which is needed since ANY queries take over entries"},
{"property": "C46", "status": "partial", "theorems": ["C46_silent", "C46_refuted"], "note": "refuted: mdnsd_query calls nothing and the cached record is never reported"},
{"property": "C47", "status": "partial", "theorems": ["C47_exact", "C47_deaf", "C47_refuted"], "note": "refuted by a history; universally, new records are told of only to queries of their very type, so a callback for ANY never hears of a new record of another type"},
{"property": "C48", "status": "proved", "theorems": ["C48_thrice"], "note": "while no answer is cached and the name is not probed for"},
{"property": "C49", "status": "partial", "theorems": ["C49_partial", "C49_refuted"], "note": "non-negative, usec at most 1000000; usec can equal 1000000, so the value is not always normalised"},
{"property": "C50", "status": "proved", "theorems": ["C50_exact", "C50_queries"], "note": "exact delay while anything is queued; with nothing queued no registered query is overslept, provided the clock never went back"},
{"property": "C51", "status": "partial", "theorems": ["C51_partial", "C51_sent", "C51_refuted"], "note": "proved for the record listed first by mdnsd_get_published on an idle daemon, with last_sent the time of the last multicast; false for the other records of the bucket"},
{"property": "C52", "status": "partial", "theorems": ["C52_partial", "C52_refuted"], "note": "the delay is 20 to 119 microseconds, proved for every query message; the documented milliseconds are refuted"},
{"property": "C53", "status": "partial", "theorems": ["C53_exact", "C53_once", "C53_others", "C53_stale", "C53_again", "C53_interface", "C53_refuted"], "note": "Proved when no withdrawal for the host is pending; refuted otherwise (the address given is lost). Also for mdnsd_set_ipv6_addresses_for_host and mdnsd_set_interface_addresses."},
{"property": "C54", "status": "proved", "theorems": ["C54_clear"], "note": ""},
{"property": "C55", "status": "partial", "theorems": ["C55_partial", "C55_refuted"], "note": "Proved for shared records in the answer section of multicast responses while mdnsd_sleep is only called with something left to do and mdnsd_shutdown is not called. Refuted in general: mdnsd_sleep republishes a record that was never set."},
{"property": "C56", "status": "partial", "theorems": ["C56_partial", "C56_own_partial", "C56_room", "C56_refuted"], "note": "Proved for datagrams as long as they claim to be; refuted for truncated datagrams, which pick up bytes of an earlier datagram of the same mdnsd_step. C56_room: storing a datagram changes nothing outside the receive buffer."},
{"property": "C57", "status": "partial", "theorems": ["C57_line_partial", "C57_file_partial", "C57_refuted"], "note": "Proved for lines with a byte other than white space before their end; a blank line makes chomp read before the buffer."},
{"property": "C58", "status": "proved", "theorems": ["C58_form", "C58_differs", "C58_refuted_long"], "note": "The last theorem shows that the bound on the length in C58_differs is needed."},
{"property": "C59", "status": "proved", "theorems": ["C59_keywords", "C59_refuted_port"], "note": "The port is stored even when invalid: C59_refuted_port."},
{"property": "C60", "status": "proved", "theorems": ["C60_best", "C60_ipv4", "C60_list"], "note": "For lists that do not contain the address ::."},
{"property": "C61", "status": "partial", "theorems": ["C61_changed", "C61_new", "C61_refuted_vanished"], "note": "Holds for interfaces that are still listed; a vanished interface is never torn down."},
{"property": "C62", "status": "proved", "theorems": ["C62_strlcpy"], "note": ""},
{"property": "C63", "status": "proved", "theorems": ["C63_port", "C63_any"], "note": ""},
{"property": "C64", "status": "partial", "theorems": ["C64_partial", "C64_refuted"], "note": "Up to one second late."},
{"property": "C65", "status": "proved", "theorems": ["C65_free"], "note": ""},
{"property": "C66", "status": "partial", "theorems": ["C66_partial", "C66_room_partial", "C66_refuted"], "note": "every message fits if frame + 261 does and the queries (260 bytes each), probes and promised answers do; false without that bound"},
{"property": "C67", "status": "partial", "theorems": ["C67_probes", "C67_announcements_partial", "C67_refuted"], "note": "Spacing of probes proved; spacing of announcements proved for quiet intervals; refuted when a query arrives in between."},
{"property": "C68", "status": "proved", "theorems": ["C68_calls", "C68_exact_partial", "C68_ends"], "note": "C68_exact_partial gives the exact order of calls and the result when every datagram is as long as it claims; C68_calls covers the others. Undefined behaviour left: parser over-read (C06) and packet overflow (C66), both with their exact condition. Sockets, clock and interface table are inputs."},
{"property": "C69", "status": "proved", "theorems": ["C69_parses", "C69_delivered"], "note": "Conditions of the statement are those of C02/C03 (legal names with one top-level label, 4096 bytes without compression or 1435 with it)."},
{"property": "C70", "status": "proved", "theorems": ["C70_known", "C70_refuted"], "note": "C70_refuted shows the exception in the statement is needed."},
{"property": "C71", "status": "partial", "theorems": ["C71_safe_partial", "C71_safe_refuted", "C71_tells"], "note": "Safe for datagram sizes that are a multiple of 4."},
{"property": "C72", "status": "partial", "theorems": ["C72_word", "C72_number", "C72_refuted"], "note": "Unknown words give level 0, not an error."},
{"property": "C73", "status": "partial", "theorems": ["C73_safe", "C73_services_partial", "C73_one", "C73_refuted"], "note": "Proved unless a name that points to several others (the list of types, a type with several instances, an alias of several hosts) shares its bucket of the table of records (109 buckets) with a name of another kind; for a single service without that condition. Without it it is false: C73_refuted gives three service types on a host whose name shares the bucket of the type listing name, and the third type is not listed. The cases are C73_case and C73_one_case."},
{"property": "C74", "status": "partial", "theorems": ["C74_partial", "C74_refuted"], "note": "Holds if no scan lists 0.0.0.0 or ::."},
{"property": "C75", "status": "partial", "theorems": ["C75_partial", "C75_told", "C75_agree_in", "C75_agree_out", "C75_refuted", "C75_refuted_expiry"], "note": "Refuted for callbacks that remove the query they are called for and return -1; proved for all others (in mdnsd_out, as in C20, for callbacks that remove nothing or while no query is due that was asked three times)."},
{"property": "C76", "status": "proved", "theorems": ["C76_asked"], "note": "Also for queries registered by callbacks, in mdnsd_in and in mdnsd_out."},
{"property": "C77", "status": "partial", "theorems": ["C77_partial", "C77_listing_partial", "C77_refuted"], "note": "Every turn is safe unless a datagram is not self-contained (C06) or a message is larger than a packet. C77_refuted: 16384 well-formed datagrams that name service types, received in one turn, make mdnsd_out write beyond the packet; the number of queries registered by the callback is not bounded."},
{"property": "C78", "status": "proved", "theorems": ["C78"], "note": "told is the sequence of callback invocations."},
{"property": "C79", "status": "proved", "theorems": ["C79"], "note": ""},
{"property": "C80", "status": "partial", "theorems": ["C80_partial", "C80_types", "C80_only", "C80_asks", "C80_refuted"], "note": "Everything found is asked for according to the argument the query was registered with (C80_partial). For sessions begun as mquery -D begins them: instances pointed to by any name but the list of service types are asked for by SRV and TXT, and service types on the list are browsed unless somebody pointed to the list itself (C80_types); nothing else is asked for (C80_only), and the list always is (C80_asks). C80_refuted: after such a pointer, service types are taken for instances and are not browsed."},
{"property": "C81", "status": "proved", "theorems": ["C81"], "note": ""},
{"property": "C82", "status": "partial", "theorems": ["C82_partial", "C82_refuted"], "note": "For hosts NAME.local. with no dot in NAME. C82_refuted: host a.b.local. is shown for a, not for a.b."},
{"property": "C83", "status": "partial", "theorems": ["C83_partial", "C83_refuted"], "note": "For instance names without a dot. C83_refuted: v2.0._http._tcp.local. is shown as 0._http."},
{"property": "C84", "status": "proved", "theorems": ["C84", "C84_begin"], "note": "A session in which no datagram arrives at all does not end with -T; the own queries are looped back by the socket."},
{"property": "C85", "status": "partial", "theorems": ["C85_partial", "C85_refuted"], "note": "The first turn that ends after the time is the last, no earlier one is. C85_refuted: with -w 10 on a silent network, select is given 86392 seconds at second 7."},
{"property": "C86", "status": "partial", "theorems": ["C86_partial", "C86_refuted"], "note": "First default route that is up. C86_refuted: a tunnel is taken although another default route follows; the name compared with tun is that of the empty buffer."},
{"property": "C87", "status": "partial", "theorems": ["C87_partial", "C87_browses", "C87_asks", "C87_refuted", "C87_refuted_itself"], "note": "All pointers told are listed and followed. C87_browses, for queries for pointers: the names found under the name given, and only these, are asked for, unless the name is found under itself. C87_asks: the name given always is. C87_refuted: a withdrawn name is listed as found again. C87_refuted_itself: once the name is found under itself, further names are not asked for."},
{"property": "C88", "status": "proved", "theorems": ["C88_unique", "C88_probe", "C88_set"], "note": ""},
{"property": "C89", "status": "partial", "theorems": ["C89_partial", "C89_listed_partial", "C89_refuted", "C89_listed_refuted"], "note": "sound with the exact TTL shown; complete unless an answer for the question is stale or does not fit; the TTL bound fails below 15 and completeness fails behind a stale answer"},
{"property": "C90", "status": "proved", "theorems": ["C90", "C90_listing"], "note": "For the callback of -D and the one that lists. lo: the clock and the outcome of sendto for each call of mdnsd_out."},
{"property": "C91", "status": "proved", "theorems": ["C91_free"], "note": "At the level of blocks passed to free."},
{"property": "C92", "status": "partial", "theorems": ["C92_queued", "C92_sent", "C92_partial", "C92_refuted"], "note": "Proved for packets without a service enumeration question; refuted with one: the other answers are dropped."},
{"property": "C93", "status": "proved", "theorems": ["C93_to", "C93_identity"], "note": "Over all histories from mdnsd_new."},
{"property": "C94", "status": "proved", "theorems": ["C94_data", "C94_said"], "note": "Records made by mdnsd_shared and mdnsd_unique; those that the daemon makes for host addresses are in C53."},
{"property": "C95", "status": "partial", "theorems": ["C95_partial", "C95_refuted_late", "C95_refuted_short"], "note": "Holds when an answer is in the cache by the time the round of three questions ends, for the answer that then expires first. Refuted for answers that come later: when nothing was cached the question is never asked again, and a shorter-lived answer does not bring the next question forward."},
{"property": "C96", "status": "proved", "theorems": ["C96_clean", "C96_no_leak", "C96_closed"], "note": "for every kernel that gives no descriptor that is open already"},
{"property": "C97", "status": "proved", "theorems": ["C97_configured", "C97_own"], "note": "options are asked for; that the kernel grants them is not part of the model"},
{"property": "C98", "status": "proved", "theorems": ["C98_ends", "C98_ipv4", "C98_isolated"], "note": "C98_isolated is about turns without signal, netlink message or poll; interface lists without the addresses 0.0.0.0 and ::"},
{"property": "C99", "status": "partial", "theorems": ["C99_alive", "C99_refuted_gone"], "note": "C99_alive: with interface lists without the addresses 0.0.0.0 and ::, only a descriptor of 1024 or more can crash it. C99_refuted_gone: vanished interfaces keep their sockets, so such a descriptor is reached with one interface at a time"}
]}
