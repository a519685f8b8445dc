# Formal model of troglobit/mdnsd in Rocq (Coq 8.16.1)

## 1. Approach

The C code in /repo is modelled function by function as total, computable
Gallina functions over `Z` (C integers, with explicit wrap-around where C has
it), `list Z` (byte strings) and records (C structs).  Nothing is extracted or
run; the model was written by reading the C text.  Every definition carries a
comment naming the file and lines it models and any simplification.

* Undefined behaviour is an outcome, not an assumption: reads and writes are
  checked against the size of the C object, dereferencing a freed or NULL
  record yields `UB`, loops over possibly cyclic lists run on fuel and running
  out of fuel is the separate outcome `Hang`.  The safety theorems say that
  these outcomes are not reached.
* Time, received packets, callback results and interface lists are inputs:
  theorems quantify over all of them.
* Properties are stated in files `Prop*.v`, which contain only statements, a
  one line `exact`, `Print Assumptions`, and an `Example` that shows that the
  hypotheses can be met by a non-trivial case.  Specifications that do not
  refer to the model are in `Spec*.v`.
* Where the documented behaviour is false of the code, a theorem with suffix
  `_refuted` exhibits a concrete input or history, and the part that is true is
  proved separately (suffix `_partial` if it is weaker than the claim).

Platform assumptions: LP64, little or big endian irrelevant (addresses are kept
as byte strings in network order), `char` signed, struct layouts as on x86-64
(`sizeof(struct question)=16`, `sizeof(struct resource)=64`), `malloc` does not
fail, strings passed to the API are NUL-terminated.

## 2. Plan per property

| Property | What is modelled | How it is proved |
|---|---|---|
| C01 | net2short … long2net (Wire.v) | arithmetic on base-256 digits |
| C02 | whole encoder and parser (Wire.v) | simulation: invariant relating encoder table, bytes and parser state, induction on the list of calls; WireTight.v bounds what compression can save, so that a packet of 1435 bytes never needs more than the parser's work area |
| C03 | `_host`, `_lmatch` | invariant "each table entry denotes, in RFC sense, a suffix of an earlier name"; `_refuted` by computation |
| C04 | `_label`, `_rrparse`, `message_parse` with fuel | fuel bound from the 255 limit and strictly increasing pointer offsets |
| C05, C07 | parser with explicit block accounting and write log | invariant on `_len`, log of intervals |
| C06 | parser with buffer size as parameter | bound on every read offset; `_refuted` by computation |
| C08 | message_packet / header part of message_parse | bit arithmetic |
| C09 | `_label` against inductive RFC 1035 relation | induction on the relation; `_refuted` |
| C10 | `_rrparse` | case analysis; `_refuted` |
| C11 | `_namehash`, `_xhter` on 64-bit words | invariant on bits 28..31 |
| C12, C13 | xht.c as array of node chains | refinement to a finite map by induction on operations |
| C14-C16 | sdtxt.c over the xht model | induction on the bytes / nodes |
| C17-C20 | mdnsd.c with a heap of records, intrusive `list` links, queries, cache, UB outcomes (Daemon.v) | global invariant preserved by each operation; `_refuted` by computation |
| C21-C24 | lookup functions | invariant "each record is in the bucket of its name" |
| C25-C31 | mdnsd_in | symbolic execution under the invariant |
| C32-C40 | mdnsd_out with the real encoder | invariants, measures, encoder size lemmas |
| C41-C48 | cache and queries | invariants on cache buckets and query list, event trace for callbacks |
| C49-C52 | mdnsd_sleep, `_r_send` | arithmetic |
| C53-C56 | address maintenance, records_clear, process_in | induction on address list, bucket lists |
| C57-C59 | conf.c | induction on lines / characters |
| C60, C61 | addr.c | induction on address list |
| C62-C64 | strlcpy.c, inet.c, main loop timeout | induction / case analysis |
| C65 | xht_store / xht_free with a log of freed strings | induction on operations |
| C66 | mdnsd_out with the encoder's buffer | size bound per section, addresses sized by the calls of the history (C35_room_partial, C66_room_partial); `_refuted` by computation on a parametrised history |
| C67 | mdnsd_in, mdnsd_out over histories | invariants on the due times; `_refuted` |
| C68 | mdnsd_step, process_in, process_out (Step.v) | each loop iteration is a call of the API model; which call, and the result, by induction on what the socket gives |
| C69, C70 | encoder, parser and daemon together | C02 composed with mdnsd_out and mdnsd_in |
| C71, C72 | netlink.c, level names of log.c | induction on the datagram / string |
| C73 | record() and load() of conf.c on top of the API model (Load.v) | invariant over the files loaded so far; `_refuted` by a hash collision |
| C74 | main loop events (Iface.v) | invariant over events; `_refuted` |
| C75 | callbacks as functions of a program state that return the mdnsd_query calls they make (Reent.v); mdnsd_in and mdnsd_out rewritten over them | invariant over runs; agreement with the model of the other properties when no calls are made; `_refuted` for remove and -1 |
| C76 | the same | invariant "new and due" over runs; the walk over the queries never meets one added during it |
| C77 | main loop of mquery over the re-entrant model (Mquery.v, Reent.v) | invariant over sessions; `_refuted` by 16384 datagrams, proved by induction on their number |
| C78, C79 | the tables and the callback of -D (Mquery.v) | invariant over the calls of the callback against a specification over the sequence of answers |
| C80 | queries registered by the callback | what the callback asked for stays registered, along sessions; which callback a query has follows from its name and type (`C80_types`, PropMqTypes.v); `_refuted` |
| C81 | print_devices with its widths and padding | the columns fit because the widths are maxima |
| C82, C83 | matches_detail, print_device_detail, strchr | case analysis on the dots; `_refuted` for dotted names |
| C84, C85 | the end of the loop | per turn, with the time of the last datagram; `_refuted` for -w |
| C86 | getifname over the lines of /proc/net/route | induction; `_refuted` for tunnels |
| C87 | ans | replay of the calls; invariant: the callback argument of a query follows from its name (PropMqTypes.v); `_refuted` for withdrawn names and for a name found under itself |
| C88 | mdnsd_unique, r_publish, mdnsd_out | outcome of mdnsd_out; bound on the probe time over histories |
| C89 | known_answers, query_loop, cache_rr over histories | loop specification with completeness; `_refuted` for short TTLs and for order |
| C90 | mquery main loop, mdnsd_out with callbacks | after one call due queries have not been asked; after two none is due |
| C91 | mdnsd_free (Free.v) | the tables hold exactly the live objects, each once: the daemon invariant |
| C92 | mdnsd_in, mdnsd_out | a question not suppressed queues the record (induction over the questions); mdnsd_out empties the queues up to the frame size |
| C93 | mdnsd_out, mdnsd_in, mdnsd_set_family | each waiting unicast reply is owed to a received question: induction over histories |
| C94 | mdnsd_set_*, _a_copy | replay of the setting calls on one record; each call changes it as the replay says and else only its TTL to 0 |
| C95 | _q_reset, mdnsd_out | invariant on the next time of the query since it was asked last; a query at rest stays at rest (refuted_late); witness story (refuted_short) |
| C96 | main loop, setup_iface, free_iface, sockets (Main.v) | the kernel is any function of the requests made so far; invariant: the open descriptors are a permutation of those the interfaces and netlink hold |
| C97 | mc_socket, mc_socket6, multicast_socket | the same invariant with: each socket held was prepared for its interface |
| C98 | main loop | the same; every known interface has its socket and context (induction over turns); induction over the interfaces of a turn |
| C99 | main loop, iface_init | as C98, with the witness of an fd_set overrun from that of C96; refuted_gone by computation |
| C100 | _cache, _q_answer and all that changes the cache | every answer in the cache or told has a property that does not depend on the TTL: induction over calls, for any such property |
| C101 | libmdnsd/log.c with syslog's mask as state (Log.v) | invariant over all call sequences: the mask is that of the level; refuted for levels of 30 and more and for packet dumps with level none |
| C102 | mdnsd_log_hex with its array (Log.v) | induction over rows and the bytes of a row against the lines of SpecLog.v; refuted for a full last line |
| C103 | the option loop of src/mdnsd.c on what getopt returns (Options.v) | invariant over the options read so far; strtol against texts that begin with a number; refuted: default TTL, trailing text, negative levels, exit status, -n -n -s |
| C104 | lib/pidfile.c with the files and the system's answers (Pidfile.v) | invariant over calls and other processes' removals; refuted: two daemons, another name, a child that calls it |
| C105 | mdnsd_in on responses (In.v) | induction over the answers: what a conflict queues is a goodbye, the rest touches no record |
| C106 | every call (Step.v) | each call adds only the records it is about to the queues; a budget per record that each multicast lowers; induction over histories |
| C107 | mdnsd_in, mdnsd_out (In.v, Out.v) | replies sent plus replies queued for an address never exceed its questions; induction over histories |
| C108 | mdnsd_out, mdnsd_in, message_packet, message_parse of two hosts (Step.v) | composes the round trip of encoder and decoder with what mdnsd_in and mdnsd_out do, end to end over bytes |
| C109 | the same | the goodbye is decoded as sent, the cache entry is expired, the callback told |
| C110, C111 | signal handlers and control flow of main (Signal.v) | a program counter with two flags, signals at every point; measures that every step lowers; induction over runs |
| C112 | _cache, _gc (Qry.v, In.v, Out.v) | entries are pairwise different and each was brought by an answer: pigeonhole; the refutation by induction on the number of records |
| C113 | conf_init, glob(3) (ConfInit.v) | pattern without special characters expands to the matching names, by induction on the path; sorting; then C57, C59 and C73 per file |
| C114 | load_all, mdnsd_out, message_parse, mdnsd_in together | invariant: every record is one of a loaded service with its data as loaded, or withdrawn; kept by every call that sets no data; then C70; multicast responses are always small enough (WireTight.v) |
| C115 | main of mquery (MqMain.v) with the socket of Main.v and the loop of Mquery.v | induction on the options; the trace of requests; the first mdnsd_out of a daemon with one query, then C02; induction on turns with C77; for one turn the calls it makes, by induction on datagrams and packets |
| C116 | load, record (Load.v) over mdnsd_set_interface_addresses (Rec.v) | invariant over the services loaded again: records that are not addresses stay, address records are withdrawn or on the interface; C73 for the first load |
| C117 | records_clear (Rec.v) then load (Load.v), later steps (Api.v) | C54 for the clearing, C73 for the load; invariant: every record is part of a loaded service or that part withdrawn; every record of a response is a record of the daemon |
| C118 | mdnsd_set_address, mdnsd_set_ipv6_address (Api.v), the getters and mdnsd_flush (Settings.v) | induction on the history for the setting, on the records for what is set in them |
| C119 | mdnsd_register_receive_callback and its calls in mdnsd_in (In.v, Api.v) | induction on the answers for a response, on the history for what was ever told |
| C120 | setup_iface, free_iface, the reload and serving parts of main for one interface (Context.v) on top of ConfInit.v, Step.v and Free.v | simulation: every action is a history of the calls of Api.v, so C17's invariant holds; the end by induction on the goodbyes; concrete counterexample for the end while announcing |
| C121 | iface_iterator, iface_find, iface_free, iface_exit and the TAILQ macros they use (IfList.v) | invariant: the links are those of the list of interfaces; refinement to that list; counterexamples for other loop bodies |
| C122 | type2str and the formats of ans (MqText.v) | the text is an instance of a grammar stated separately; splitting at separators that numbers cannot contain; `_refuted` by a session and by two answers |
| C123 | the line of ans without -s (MqText.v), sessions (Mquery.v) | the output is the concatenation of the lines of what was told; split at the first line end and at the last parenthesis; `_refuted` by two sessions |

## 3. What is modelled

| Code | Model | Notes |
|---|---|---|
| libmdnsd/1035.c, all functions | Wire.v, WireCalls.v | buffer, block and offsets explicit; every read and write checked |
| libmdnsd/xht.c, all functions | Hash.v, Xht.v | nodes as lists per bucket; allocation succeeds |
| libmdnsd/sdtxt.c, all functions | SdTxt.v | writes checked against the computed allocation |
| libmdnsd/mdnsd.c, published records and queues | Rec.v | heap of records with the intrusive `list` links, bucket lists `next` as Coq lists |
| libmdnsd/mdnsd.c, queries and cache | Qry.v | heap of queries; buckets as lists |
| libmdnsd/mdnsd.c, address getters, mdnsd_flush | Settings.v | none |
| libmdnsd/mdnsd.c, mdnsd_out and its helpers | Out.v | the message is the list of calls to the encoder; Wire.v gives its bytes |
| libmdnsd/mdnsd.c, mdnsd_in, mdnsd_sleep | In.v | on the parsed message |
| libmdnsd/mdnsd.c, the API as a transition system, mdnsd_new, getters and setters | Api.v | `step`, `legal`, `reach` |
| libmdnsd/mdnsd.c, mdnsd_free, _free_cached, _free_record | Free.v | the blocks passed to free |
| libmdnsd/mdnsd.c, process_in, process_out, mdnsd_step | Step.v | datagrams, send results and clock are inputs |
| the same, with answer callbacks that call mdnsd_query: _q_answer, _c_expire, _c_expire_all, _gc, _cache, mdnsd_in, mdnsd_out | Reent.v | a callback is a function of the program's state; proved to agree with Qry.v, In.v and Out.v when no calls are made |
| libmdnsd/inet.c, lib/strlcpy.c, src/netlink.c netlink_read, mdnsd_log_level of libmdnsd/log.c | Lib.v | C objects as byte lists with checked access |
| src/conf.c chomp, match, read_line, parse, host name part of conf_init | Conf.v | fgets modelled as cutting at 255 bytes or newline |
| src/conf.c fqdn, record, load, load_all | Load.v | snprintf as truncation to 255 bytes |
| src/conf.c conf_init, with glob(3) and stat(2) | ConfInit.v | a file system is a function from paths; what patterns with brackets or a leading tilde expand to is a parameter |
| src/addr.c, the list: iface_iterator, iface_find, iface_free, iface_exit, TAILQ macros of sys/queue.h | IfList.v | an interface is its name and links; loop bodies drop the interface they are at, or not |
| src/addr.c, and setup_iface, free_iface, mdnsd_conflict, reload and timeout of src/mdnsd.c | Iface.v | getifaddrs list is an input; a context is present or absent |
| src/mcsock.c, multicast_socket, setup_iface, free_iface, sys_init and main loop of src/mdnsd.c, netlink_init, netlink_exit of src/netlink.c | Main.v | requests to the kernel and their results; mdnsd_step is one request; select's result, signals and getifaddrs are inputs |
| src/mquery.c: main up to the loop, msock | MqMain.v | what getopt returns is an input; the texts printed and the log are left out; requests to the kernel as in Main.v |
| src/mquery.c: type2str and the text of the lines of ans | MqText.v | printf's %d and %s |
| src/mquery.c, the rest | Mquery.v | linked lists as lists; the lines of /proc/net/route, the datagrams and the clock are inputs; inet_ntop is a parameter that gives at most 45 characters |
| libmdnsd/log.c, but for mdnsd_log_time | Log.v | what is asked of syslog, stderr, stdout; syslog's mask |
| src/mdnsd.c, done, reconf, sig_init and the control flow of main | Signal.v | signals may come at every step; reading the configuration is one step |
| src/mdnsd.c, setup_iface, free_iface and the serving and reloading parts of main, for the contexts of one interface | Context.v | conf_init, mdnsd_step and mdnsd_free are those of ConfInit.v, Step.v and Free.v; sockets and logging are left out (see Main.v) |
| src/mdnsd.c, option loop of main, progname | Options.v | getopt's results are the input |
| lib/pidfile.c | Pidfile.v | files are a map; results of system calls are inputs; time stamps left out |

How the heap is treated: a record handle is a number; `hp` maps live handles to
records; freeing removes the handle and handles are not reused, so any use of a
freed record is visible as `UB UseAfterFree`.  Address reuse by malloc is thus
not modelled; since no legal call reaches `UB`, it cannot matter for those.

A history is a sequence of `step`s.  `legal` excludes what the C interface
cannot survive or does not allow:

* handles passed to mdnsd_set_* and mdnsd_done are live;
* mdnsd_unique is given a conflict callback (a NULL one is called by the code);
* mdnsd_shutdown is called when no record is probing, delayed or being
  announced; mdnsd_set_address/mdnsd_set_ipv6_address with the zero address
  when no address record of that family waits on a queue (C19 refutes the rest;
  C19_sends_partial covers shutting down in other states, followed by mdnsd_out
  and mdnsd_free only);
* in mdnsd_out, an answer callback does not return -1 for a query that has been
  asked three times (C20 refutes the rest);
* clock readings are not negative.

## 4. What is not modelled

* Callbacks that call other functions of the library than mdnsd_query (Reent.v
  models callbacks that call that one); elsewhere callbacks are values: their
  results are inputs, their invocations are recorded in order.
* Allocation failure; the size of the heap.
* Which messages are logged, and mdnsd_log_time (how they are logged is in Log.v).
* lib/utimensat.c, getopt, usage text.
* What glob(3) makes of brackets and a leading tilde in the path given to conf_init.
* getopt and the usage text of src/mquery.c; examples/, test/.
* Integer overflow of counters that need 2^31 events (for instance the number of
  records), and of times near the end of the range of time_t.

## 5. Trusted base

* The kernel of Coq 8.16.1 (`coqc`, and `coqchk` run over all files).
* `Print Assumptions` under each theorem of `Prop*.v` prints "Closed under the
  global context" for every one of them: no axiom is used, not even one of the
  standard library.
* The standard library is loaded (List, ZArith, Lia, String, Ascii).  Loading it
  brings in the module type `Coq.ssr.ssrunder.Under_rel`, whose seven parameters
  (`Under_rel`, `Under_relE`, `Under_rel_from_rel`, `under_rel_done`, `Over_rel`,
  `over_rel`, `over_rel_done`) a listing of the context shows as axioms of the
  library.  No theorem depends on them.
* The correspondence of model and C text is by reading: each definition cites
  the lines it models and says where it simplifies.
* No axiom, `Admitted`, functor, module type, plug-in or switched-off check.

## 6. Findings

Places where the code does not do what its documentation or a standard says;
each has a `_refuted` theorem unless marked (observed).

Wire format
* Compression may point into the middle of another name (C03_refuted).
* The parser's block is one byte smaller than what the parser may fill (C05), it
  may read beyond the receive buffer (C06), it follows neither pointers to the
  root nor chains of pointers (C09), and takes the natural length of data
  rather than the announced one (C10).

TXT data
* A string of more than 255 bytes wraps its length byte (C15_refuted_long).

Daemon: memory
* mdnsd_shutdown and withdrawing an address relink records that are still on
  another queue: use after free (C19).
* A callback that unregisters in the expiry of a query asked three times: use
  after free (C20).
* A callback that removes the query it is called for and returns -1: null
  pointer, or use after free when it is called for an expired record (C75).
* Probes and queries are not limited in size: overflow of the packet (C66).
* A NULL conflict callback is called (observed; excluded by `legal`).

Daemon: protocol
* Probing records are given in unicast replies and additional sections (C29).
* Conflict detection fires on identical data, misses other data and looks at the
  wrong section in probes (C31); so two hosts that hear each other's every packet
  both verify and announce the same name with different addresses (C31_refuted_duel).
* The cache has no limit: one host can fill it with any number of records at once,
  which stay for up to a day after their time (C112, C44).
* Goodbyes are dropped by a service enumeration query or when data was never set
  (C33); an address that is given again while its goodbye is pending is lost (C53).
* Answers to other questions are dropped while a service enumeration query is
  handled (C92).
* The size estimate leaves out the owner name (C35).
* Expired entries are listed (C44), cached answers are not reported to new
  queries (C46), ANY queries never get an answer (C47: C47_exact says which
  queries are told, C47_deaf that an ANY query is told of nothing).
* mdnsd_sleep may return 1000000 microseconds (C49); only the first record of a
  bucket is republished (C51); the delay is in microseconds instead of
  milliseconds (C52); a query shortens the spacing of announcements (C67).
* Known answers overstate the TTL of records with TTLs below 15, and one that is
  no longer fresh hides the fresh ones behind it (C89). (observed) They show
  half of the TTL, so responders that follow RFC 6762, 7.1 answer anyway.
* Records without data are sent by mdnsd_sleep, mdnsd_shutdown and probes (C55,
  C55_partial for the rest); a short datagram is parsed with the bytes
  of an earlier one (C56); unique records of one message flush each other (C70).
* mdnsd_get_published and mdnsd_has_query go by bucket, not name (C22, C23).
* An answer that comes after the three questions were asked is never asked for
  again, and a shorter-lived one not in time (C95).
* (observed) The sender's address kept with a pointer is that of the host heard
  first; hosts that refresh it later are not noted.

Application
* A blank line in a .service file makes chomp read before the buffer (C57); an
  invalid port is stored (C59); an unknown log level is level 0 (C72).
* Host names of 254 bytes are not made different (C58_refuted_long).
* Vanished interfaces are not torn down (C61); an interface whose only address is
  zero makes reload and exit use a NULL context (C74).
* Since they keep their sockets, 512 interfaces with different names, one after
  the other, make the main loop write past its fd_set (C99_refuted_gone).
* netlink_read runs past a datagram whose size is no multiple of 4 (C71).
* A SIGHUP that comes while a reload is ending is lost (C111).
* The debug line for a received TXT record prints its data with %s though it is not
  terminated, so what follows in the message is shown too (observed).
* The main loop may wake up to a second late (C64).
* A service type is not listed when a record of a colliding bucket is in the way (C73).
* A conflict about a service with a `name` line never ends: only the host name
  is changed (observed).
* A log level of 30 or more overflows when syslog is used, and with the level
  none every packet is dumped (C101).
* The characters of the last line of a packet dump are lost if it is full (C102).
* The TTL is 255 unless given, not 1 as the help text says; text behind a TTL is
  ignored; negative levels but -1 are taken and ignored; unknown options end
  mdnsd with status 0; -n -n -s does not use syslog (C103).
* A second mdnsd takes over the PID file, which the first removes at its end; a
  child that calls pidfile does too and leaves it behind (C104).

mquery
* Every service type somebody names is queried: about 16000 small datagrams make
  the query overflow the packet (C77).
* A pointer from the list of service types to itself stops the browsing (C80), and
  so does, in mquery without -D, one from the name asked for to itself (C87).
* -d does not find hosts with a dot in their name by that name and finds them by
  its first part (C82); service types of instances with a dot are wrong (C83).
* -w does not limit the time the library sleeps (C85).
* Tunnels are not skipped (C86); withdrawn names are listed as found (C87).
* Names of more than 255 characters, which the parser lets through, are cut and
  entered again with each answer (observed).
* mquery's command line: an option it does not have ends it with the status of
  success (C115_refuted_status); with -D a NAME is ignored (C115_refuted_name); -t
  with a type other than PTR shows nothing unless -s is given too
  (C115_refuted_shown); NAME without its last dot (C115_refuted_dot) and types above
  65535 (C115_refuted_type) are asked for, but the answers are not shown.

Reading the services
* The path is used as a pattern: with a question mark, star or bracket in it files
  of other directories are read, with a backslash none (C113_refuted_other,
  C113_refuted_none).
* A directory named x.service is published as a web service at port 0
  (C113_refuted_nested).
* Names are not checked: a service file whose name has a label of 64 bytes makes
  every packet with it unreadable, and with it all other services in that packet
  (C114_refuted).

* An address that goes and comes back while its withdrawal waits to be sent is not
  published again when the files are loaded in place, so the services are without
  it until the next full reload (C116_refuted; the cause is that of C53_refuted).

* SIGHUP after a .service file has been removed: the records are freed without a
  withdrawal, so other hosts keep the service until its time to live is over
  (C117_refuted).

* mdnsd_set_address gives all A records of all hosts the same address, so a host
  with two addresses has one of them twice (C118_refuted_twice). Setting the
  address to what it is does not reach records made since (C118_refuted_same).
* mdnsd_flush is documented to flush the cache and does nothing
  (C118_refuted_flush).

* The receive callback, documented as called for every received record, is not
  told the records of the authority and additional sections; mdnsd_in does not
  look at these at all (C119_refuted_sections). A known answer in a query is told
  once for every record of the host it is compared with
  (C119_refuted_queries).

* mdnsd that is stopped, or loses an interface, while it announces its records
  uses a freed record, if the goodbyes take more than one message
  (C120_refuted_end): free_iface calls mdnsd_shutdown, which links all records
  into the list of answers without taking them off the list of announcements.
  Three service files are enough, two of them with two text entries of 240 bytes.

* iface_iterator keeps its position in one static variable: a loop whose body
  searches by name (iface_find) starts over for ever, and one that frees another
  interface than the one it is at uses freed memory (C121_refuted_search,
  C121_refuted_other).  mdnsd has no such loop today.

* mquery -s shows half of the TTL plus 8 as the seconds of a new answer: 68 for
  120 (C122_refuted_seconds), since mdnsd keeps the time at which the cache drops
  the answer in `ttl`.  Names with spaces, which instance names usually have, make
  lines ambiguous (C122_refuted_space).  type2str has `TR (12)` for PTR; ans
  never asks it for that type.

* mquery prints names from the network as they are.  A name with a line end forges
  lines of the listing, with any address (C123_refuted).

## 7. Wrong programs

`seeded/LOG.jsonl` lists edits to the model that a realistic bug would make, the
claims they break, and the theorems that then fail to build.
