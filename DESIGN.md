# Formal model of dnsforwarder in Rocq (Coq 8.16.1)

## Trusted base

* Coq's kernel (8.16.1) and its standard library. No axiom is added. `Print Assumptions` after each of the
  413 property theorems listed in `MANIFEST.json` prints `Closed under the global context`: no theorem depends on an axiom, not even one
  of the standard library. (`coqchk` lists seven constants `Coq.ssr.ssrunder.Under_rel.*`; they belong to a standard library
  file that `lia`'s preprocessing loads, and nothing here uses them.)
* The reading of the C code. The code is never built or run. Every definition of a `*_Model.v` file cites the file and lines it
  renders, and says where it simplifies.
* The specifications, which are small and stand in `*_Spec.v` files or at the top of `*_Props.v` files.

## Layout (`rocq/theories`)

* `Base.v`: outcomes (`Ret`, `UBR` = read outside of an object, `UBW` = write outside, `Fuel` = loop not finished), bytes, big-endian numbers.
* `X_Model.v`: definitions only. `X_Spec.v`: specifications. `X_Proofs.v` and the like: lemmas.
  `X_Props.v`: the property theorems `Cnn_...`, each followed by `Print Assumptions`, and an example `Cnn_nonvacuous` (a concrete case that meets the hypotheses).
* A theorem with suffix `_partial` proves a property under a restriction that is named next to it; a theorem with suffix
  `_refuted` gives a witness against the full statement, that is, a defect of the code.
* `seeded/LOG.jsonl`: wrong programs tried against the theorems (see the end).

## Coverage of the code

Functions named in the left column are modelled (the comment at each definition gives the lines); the right column lists what is not.

| source | model file | modelled | not modelled |
|---|---|---|---|
| utils.c | Addr, Queue, Hash, Slist, Config | IPv4/IPv6 text conversion, IsPrime, FindNextPrime, BKDRHash, StrToLower, StrNpbrk, StrRNpbrk, GoToNextNonSpace, CountSubStr, ReplaceStr*, SplitNameAndValue, ExpandPath (oracle), ClearTCPSocketBuffer (Tcp) | logging helpers, files, URLs, socket options, Base64 (dead code) |
| array.c, stablebuffer.c | Arr | Array: Init, PushBack, GetBySubscript, GetNext, SetToSubscript; StableBuffer: Add, Clear, blocks | Array_Sort, Array_Fill, Array_GetThis, Free, StableBufferIterator other than NextBlock |
| addresslist.c | Arr, Alist | Add, Advance, GetOneBySubscript, GetOne, GetPtrListOfFamily, ConvertFromString, Add_From_String | GetPtrList |
| bst.c | Bst | all but Free | - |
| simpleht.c | Sht | all but Free | - |
| stringlist.c | Slist | all | - |
| stringchunk.c | Chunk | all but Free | - |
| readline.c | Line | all | - |
| readconfig.c | Config | reading of lines, options, values; Get* calls | ConfigOpenFile, ConfigCloseFile, ConfigFree |
| linkedqueue.c, timedtask.c | Queue | queue; scheduler (POSIX branch) | Windows branch (see Wtask) |
| cacheht.c | Cht, Cfile | all (the indexes for any number of slots) | pow and log in CalculateSlotCount (a parameter) |
| dnscache.c | Cache, Ttl, Rdata, Fetch, Cfile | AddAItem, AddItems, FindFromCache, CacheMinTTL, GetRawRecords, GetCName, GetByQuestion, FetchFromCache, sweep, rules of Init, IsReloadable, ReloadCache, CreateNewCache, InitCacheInfo, Init (the file) | the locks; a crash in the middle of an operation |
| cachettlcrtl.c | Ttl | rules from their text, Get, choice | Init and Free |
| dnsparser.c | Name, Parser, Rdata | names, header, iterator, HasType, ToCacheData, TextifyData and their parsers, GetAllAnswers | - |
| dnsgenerator.c | Name, Gen | all | - |
| hostscontainer.c, hosts.c, hostsutils.c, statichosts.c, dynamichosts.c | Hosts, Hmsg, Redir, Cycle, Reload | type of a line, Load, Find, choices of Try and of Hosts_Try, the reply, Hosts_Get; GenerateQuery, CombineRecursedResponse, the loop of Hosts_SocketLoop; reload | setting up the sockets, download (downloader.c) |
| ipchunk.c, ipmisc.c | Ip, Ipload, Reload | all | ExpandPathTo and fopen (a function from paths to bytes) |
| filter.c, iheader.c | Filter, Gen, Mctx, Iheader | filter, Fill, AddFakeEdns, IsBlocked, SendBack (framing), SendBackRefused | sockets |
| mcontext.c | Mctx | all but Init and Free | - |
| mmgr.c | Mmgr, Reload | module loading from options and files, choice of the group, replacement of the groups | in Mmgr: proxy and parallel options, which are in Grp_Model |
| udpm.c | Udpm | UdpM_Send, UdpM_Works (turn by turn), SweepTask, UdpM_Cleanup | UdpM_Init (threads, parsing of the servers), the domain statistic and log calls, allocation failure of the table |
| tcpm.c, tcpfrontend.c, udpfrontend.c | Mmgr, Tcp, Iheader, Tfe, Tcpm | order of decisions for a query; receiving loop of the UDP front end; reading and writing of a TCP message, SOCKS5 handshake; turns of the TCP front end over its connections; turns of the TCP upstream module over its connections: reuse, retries, time-outs, cleanup; reading of the server lists and opening of the interfaces at start (Alist, with TryBindLocal of utils.c) | threads, the rest of the start-up |
| socketpool.c, socketpuller.c | Sock | Add, Del, FetchOnSet, CloseAll; the puller: Add, Del, Select, CloseAll; the kernel: oracle | allocation failure, write sets of the puller (same code), Windows error codes |
| domainstatistic.c | Stat | Add, Works | template file |
| goodiplist.c | Good | all but Cleanup; the network: parameter | - |
| downloader.c, GetHostsFromInternet_Thread (dynamichosts.c) | Dl | GetFromInternet_MultiFiles, GetFromInternet_SingleFile, CopyAFile, GetLocalPathFromURL, the thread | libcurl, wget, waits; failing writes |
| main.c, GetConfigDirectory and GetPathPart (utils.c) | Main | ArgParse, EnvironmentInit with all its options, GetDefaultConfigureFile, the order of main | output, fork, PrepareEnvironment, Windows |
| dynamichosts.c (loading), statichosts.c (init) | Dyn | DynamicHosts_Load, DynamicHosts_Init, StaticHosts_Init and the updating thread | locks, logging, TrimAll of the URLs |
| mmgr.c, udpm.c, tcpm.c: life of the groups | Retire | Modules_Load (publish, replace, fail), Modules_SafeCleanup, MMgr_Send (the lock and the call), UdpM_Works/Cleanup/Sweep_Thread/Send/Init and TcpM_Works/Cleanup/Init: the accesses to IsServer, WorkThread, SweepThread, addresses, context and ServiceName | what is done in a turn (Udpm, Tcpm, C68-C71); the reference counting of the map of domains; memory order weaker than sequential consistency |
| timedtask.c (Windows), winmsgque.c | Wtask | TimeTask_ReduceTime/RunTack/Work, TimedTask_Add/Init, WinMsgQue_Init/Post/Wait | failing allocation; WinMsgQue_Destroy |
| mmgr.c 818-877, udpfrontend.c 36-104 | Serve | MMgr_Send with the real stages, one turn of the UDP front end | logs, statistics, the lock (C47) |
| udpm.c (families) | Fam | UdpM_Init (the servers), the family of the socket that UdpM_Works makes | failures of allocation; what sendto does with an address of another family |
| mmgr.c, tcpm.c, udpm.c (setting up) | Grp, Tmem | Modules_Init, Modules_InitFromFile, Udp_Init_Core, Tcp_Init_Core, TcpM_Init with its exits, TcpM_Cleanup (memory), UdpM_Init, UdpM_Cleanup (memory) | threads and sockets (Retire, Tcpm); the blocks inside of a puller, a table of contexts, a StringList |
| logs.c | Log | all of Log_Init, CheckLength, Log_Print | formatting of messages |
| pipes.c, ptimer.c, win* | - | - | timing, Windows |

## Modelling conventions

* Bytes are `Z` in 0..255, C strings are `list Z` without the NUL. `int` and pointers are unbounded unless a wrap matters, in
  which case it is explicit (`u32`, `to_int32`, `schar`, counters of the header modulo 65536).
* Reading or writing outside of an object is an outcome of its own. Reading uninitialised stack memory is a parameter (`stale`, `d0`, `c0`, `a0`);
  the contents of fresh heap memory is a parameter (`junk`). Theorems are quantified over them.
* Loops carry fuel where Coq cannot see that they end; theorems either hold for every fuel, or give the amount that is enough.
* Memory allocation succeeds unless a parameter says otherwise (`ok : bool`).
* Parameters of sections (never axioms), quantified over in the theorems: `fnmatch`; `rand`; the address of a good list (`GoodIpList_Get`); `IpAddr_Parse` in the
  hosts container (the function itself is modelled for C29-C32); path expansion (`wordexp`); contents of files; success of `UdpM_Init` and `TcpM_Init`; order of
  events delivered by `select`, `recv`, `send`.
* C library: `sscanf`, `sprintf`, `strtol`/`atoi`, `fgets`, `ctype.h` are rendered for the C locale and the formats the code uses; numbers read by
  `sscanf` are reduced modulo 2^32. `memcmp` is used only for equality and order.
* Time is a number (64 bit `time_t`); one operation reads the clock once.
* Threads: C47 has an interleaving semantics (sequential consistency; the read-write lock as a counter and a flag). Everywhere else an operation that the code
  runs under a lock is one step. Exception noted at C16: the sweep's first test runs before the lock is taken.
* The little-endian branch of the bit fields and the POSIX branches of `#ifdef`s are modelled.

## Properties: what is modelled, how it is proved, result

* **C01 Domain names survive the trip to the wire and back** (proved). `DNSLabelizedName` and `DNSGetHostName` over a memory; composition proved by induction over labels.
  Theorems: `C01_name_round_trip`, `C01_written_form`. Round trip and exact wire form; the reader consumes exactly the written bytes.
* **C02 Compressed names expand to the name they denote** (proved). Specification: an inductive relation "offset o of packet m denotes labels ls" (RFC 1035 4.1.4). Reader = relation, by induction on the relation and on the iterations.
  Theorems: `C02_name_read_is_rfc1035_decoding`, `C02_name_read_sound`, `C02_decoding_unique`, `C02_jump_over_name`. Completeness, soundness (labels up to 191 bytes are accepted) and uniqueness of the decoding; jumping over a name.
* **C03 Reading a name never writes outside the caller's buffer** (proved). Invariant of the reader's loop: written length below the buffer length.
  Theorems: `C03_name_read_stays_in_buffer`. For every packet, declared length, offset, buffer and number of iterations.
* **C04 Reading a name terminates on every packet** (partial). Measure on (position, jumps) where pointers do not lead to forward pointers; witness otherwise.
  Theorems: `C04_name_read_terminates_refuted`, `C04_name_read_terminates_partial`, `C04_jump_terminates`, `C04_read_endless`, `C04_read_bound`, `C04_copy_endless`. False of the code: a self-pointing name loops for ever (_refuted). Proved: terminates when no pointer leads to a pointer that is not before it, with an explicit bound. C04_read_endless: exactly when reading does not end: when it comes, over labels for which there is room, to a pointer that leads to itself by pointers only; C04_read_bound: it ends within a known number of turns or never. C04_copy_endless: the same for copying a name, which also goes round over labels.
* **C05 Reading a name never reads outside the packet** (partial). Invariant on the read position; witness of a read past the end.
  Theorems: `C05_name_read_inside_packet_refuted`, `C05_name_read_three_bytes_partial`. False of the code (_refuted, even with two bytes of slack). Proved: never more than three bytes past the packet are read.
* **C06 Walking the records of any packet is bounded by its header counts** (partial). Iterator model; induction over its steps.
  Theorems: `C06_walk_bounded_partial`, `C06_sections_refuted`. False of the code when QDCOUNT is 0 (_refuted: the first record is taken for a question). Proved for every packet with a question.
* **C07 Walking a well-formed message visits exactly its records** (partial). Specification: encoder of an abstract message; induction over the sections.
  Theorems: `C07_walk_exact_partial`, `C07_has_type_partial`, `C07_walk_without_question_refuted`. For every well-formed message with at least one question; without one the walk is wrong (_refuted). C07_has_type_partial: the search for records of a type (HasType) finds one exactly when there is one.
* **C08 Building a message never writes outside the output buffer** (partial). Each call of the generator over a fixed buffer; invariant over histories.
  Theorems: `C08_building_stays_in_buffer_partial`, `C08_raw_data_partial`, `C08_building_stays_in_buffer_refuted`, `C08_call_effect`. False of the code for RawData, whose copy is not checked (_refuted, and the exact condition in C08_raw_data_partial). Proved for every other call and history; C08_call_effect covers every call.
* **C09 Header counts equal the number of records built** (proved). Invariant over histories: header counts equal the numbers of successful calls.
  Theorems: `C09_header_counts`. All histories of calls, failing ones included; counts are modulo 65536 as in the header.
* **C10 Built records read back unchanged** (partial). Refinement of histories to the abstract message, then C07.
  Theorems: `C10_built_message_partial`, `C10_built_message_refuted`. Proved for histories in which no call ran out of space; after such a call a later success gives a corrupt message (_refuted).
* **C11 Compressing the answers keeps their meaning** (proved). Induction over the answers, each name replaced by a pointer that C02 decodes.
  Theorems: `C11_compression_keeps_meaning`. For the messages DNSCompress is called on: the answers form an alias chain of uncompressed owner names, all within 16384 bytes.
* **C12 Cache memory regions never overlap** (proved). Node array, slots, free list and data area as memory; invariant (disjoint blocks) over histories of additions and sweeps.
  Theorems: `C12_memory`, `C12_no_stray_access`. Any cache size and number of slots, any history. A memcmp while adding may read past the end of the area only when the cache has fewer than 128 slots; C12_no_stray_access gives the condition under which nothing outside is touched.
* **C13 The cache index stays consistent** (proved). The same invariant: chains partition the used nodes.
  Theorems: `C13_index`. Every live record is reachable from the slot of its key and nothing else is; entries counted exactly.
* **C14 A cache lookup returns only what was stored under that key** (proved). Refinement to an association list of live records.
  Theorems: `C14_lookup`, `C14_only_what_was_stored`. Refinement: the answer is exactly the list of live records of that name, type and class, newest first; each was stored by some addition of the history.
* **C15 The cache never serves an expired record** (proved). From C14 with the lifetime test.
  Theorems: `C15_never_expired`. Every served record is within its lifetime and the TTL served is what remains of it (IgnoreTTL off).
* **C16 The periodic sweep removes exactly the expired records** (proved). Sweep against the refinement.
  Theorems: `C16_sweep`. The sweep removes exactly the expired records. It is modelled as one step: the first test of the real task runs before it takes the lock.
* **C17 Configured TTL rules determine the stored lifetime** (partial). Rules from their text to the stored lifetime; specification of the documented selection.
  Theorems: `C17_rule_determined`, `C17_configured`, `C17_lifetime_partial`, `C17_documented_partial`, `C17_own_rule_refuted`, `C17_wrap_refuted`, `C17_message`, `C17_nocache`. Rule selection and lifetimes as written in the configuration text, for every rule list, name and TTL. Missing from the documented behaviour: a record's own plain rule never applies because the lookup key is 'name type class' (C17_own_rule_refuted), and coefficient/offset arithmetic wraps at 2^32 (C17_wrap_refuted); C17_documented_partial is the documented selection where neither happens.
* **C18 Following cached aliases always terminates** (partial). Every alias takes room in the buffer, which bounds the loop; exact answer relation.
  Theorems: `C18_answer`, `C18_terminates`, `C18_within_buffer_partial`, `C18_overflow_refuted`. Termination for every cache history (alias loops included) and buffer; the answer is characterised exactly. Writing stays inside the buffer except for the raw types (A, AAAA, HTTPS, TXT), whose data is copied without a check (C18_overflow_refuted); C18_terminates names the overflowing record.
* **C19 A new record is never mistaken for an already cached one** (partial). From the characterisation of the duplicate test.
  Theorems: `C19_stored_partial`, `C19_same_length`, `C19_prefix_refuted`. False of the code: a record whose data is a prefix of stored data is taken for it (C19_prefix_refuted). Proved: stored whenever its data is no prefix of that of a live record of the same key and there is room (C19_stored_partial); always for data of equal length.
* **C20 The ordered set behaves like a multiset** (partial). Heap model of the pointer code; representation predicate for trees, multiset refinement.
  Theorems: `C20_contents`, `C20_enumeration`, `C20_search`, `C20_in_order`, `C20_repeated_search_partial`, `C20_repeated_search_refuted`. Contents, enumeration, search and in-order traversal are proved for all histories of additions and deletions. Repeated searching from a found element finds all equal elements only as long as nothing was deleted: after a deletion it may miss some (C20_repeated_search_refuted).
* **C21 A reply is handed to at most one waiting client, and to the one that asked** (partial). On C20: plain collection of pending queries.
  Theorems: `C21_replies_partial`, `C21_conservation`, `C21_replies_refuted`. Every history of queries, replies and sweeps runs as the plain collection of pending queries; conservation proved. Partial since matching is by message id and 32 bit hash, not the name: two names with the same hash are mixed up (C21_replies_refuted).
* **C22 A reply to a pending query is always recognised** (partial). On C20: cyclic comparison is a total order within half the range.
  Theorems: `C22_recognised_partial`, `C22_distinct_ids_partial`, `C22_recognised_refuted`. Proved when hashes pending under the same id stay within half the hash range (in particular when ids differ). False in general: the comparison wraps and is not transitive (C22_recognised_refuted, google.com, github.com, h.com).
* **C23 Sweeping drops exactly the queries older than the limit** (proved). On C20 with enumeration and deletion.
  Theorems: `C23_sweep_exact`. One sweep uses one clock value in the model; the code reads the clock per element.
* **C24 The hash table finds what was put in** (proved). Chains as lists, expansion by rehashing; refinement over additions.
  Theorems: `C24_finds_all`, `C24_enumeration`, `C24_load`. Proved for every sequence of additions: Find/Next enumerate exactly the accepted elements, newest first, through every expansion of the table; enumeration order; load bound.
* **C25 Domain rules pick the closest enclosing domain, the most recent rule first** (partial). Loop over the suffixes of the name; specification by closest suffix.
  Theorems: `C25_closest_partial`, `C25_exact`, `C25_enumeration`, `C25_root_refuted`. Proved for every rule list and every name but the root (empty) name. For the root name the code reads the bytes behind the terminator (stale previous name): C25_root_refuted.
* **C26 Exact rules take precedence over wildcard rules** (proved). Combination of plain and wildcard lookups.
  Theorems: `C26_match`, `C26_match_exactly`, `C26_domain_match`, `C26_domain_match_random`, `C26_random_reaches_all`. Proved for the four kinds of lookup, for any fnmatch and any rand; domain lookups for names other than the root. C26_random_reaches_all: each matching pattern is given for some value of rand.
* **C27 Hosts entries answer by record type as documented** (partial). Specification over the list of lines; refinement of the container.
  Theorems: `C27_lookup_partial`, `C27_domain`, `C27_families`, `C27_lifo_refuted`, `C27_alias_priority_refuted`, `C27_long_word_refuted`. Full characterisation of lookups for every list of lines (words up to 128 characters) and every query; the documented priorities (addresses before aliases, last line wins, long lines rejected) are false of the code: C27_lifo_refuted, C27_alias_priority_refuted, C27_long_word_refuted. Missing: words longer than 128 characters, list name <>.
* **C28 Static hosts win over downloaded hosts** (proved). Two containers; case analysis of Hosts_Try.
  Theorems: `C28_two_tables`, `C28_alias`. Proved for every pair of tables, loaded or not, every name, type of query and option value.
* **C29 Blocking and substituting single addresses is exact** (proved). Parser of rules and tree of addresses (C20).
  Theorems: `C29_exact`, `C29_one`. Rules given as configuration texts; the first rule for exactly the address is found in every rule set; with single-address rules only, nothing else is. Zoned IPv6 rules never match.
* **C30 Address ranges cover exactly their members** (proved). Masks as bit operations; membership specified by leading bits.
  Theorems: `C30_sound`, `C30_exact`. Soundness for every rule set; exact coverage of one rule for every prefix length, both families.
* **C31 Every configured range rule takes effect** (partial). Order of ranges; witness of a missed rule.
  Theorems: `C31_effect_partial`, `C31_effect_refuted`. False in general (C31_effect_refuted: 10.1.0.0/16 then 10.0.0.0/8 misses 10.2.0.5). Proved when no range follows a narrower one inside of it.
* **C32 Reply filtering touches only what the rules name** (partial). Loop over the answers of an encoded message (C07).
  Theorems: `C32_filter_partial`, `C32_short`, `C32_filter_refuted`. Proved for well-formed replies with a question whose A/AAAA data have 4/16 bytes. Data of another length: refuted (bytes of the next record are replaced). A reply without questions is not covered (its sections are misread).
* **C33 UDP and TCP upstreams stay isolated unless enabled** (partial). Loading of groups and rules (C25, C26, C37, C38), choice of a group.
  Theorems: `C33_load`, `C33_choice`, `C33_isolated_partial`, `C33_fallback_refuted`. C33_choice characterises the choice completely. Isolation holds for choices made by a rule (C33_isolated_partial); when no fitting rule covers the name the group is taken by the query identifier whatever its protocol (C33_fallback_refuted). UdpM_Init/TcpM_Init success, the file system, fnmatch and rand are parameters.
* **C34 Timed tasks run in order, not early, and none is lost** (proved). Scheduler as a transition system with adding threads; invariants over executions.
  Theorems: `C34_none_lost`, `C34_order`, `C34_progress`, `C34_wake`, `C34_expire`, `C34_not_early`, `C34_once`. Executions of the scheduler with other threads adding tasks; select stores the remaining time (Linux). A task never starts early, runs of one task are a period apart, the least remaining time first, none is lost. Memory and pipe errors are not modelled.
* **C35 The priority queue is ordered and loses nothing** (proved). Sorted list, permutation.
  Theorems: `C35_place`, `C35_holds`, `C35_minimum`. Any comparison that is a total preorder, any sequence of operations.
* **C36 Stored strings keep their address and content** (proved). Blocks; invariant that earlier bytes and addresses do not change.
  Theorems: `C36_stable`, `C36_addresses`, `C36_aligned`. Sequences of additions of any sizes; offsets are multiples of 8 if all additions are aligned.
* **C37 Splitting a list option yields the delimiter-separated items** (partial). Pieces of a text by delimiters.
  Theorems: `C37_pieces`, `C37_list`, `C37_parts_partial`, `C37_parts_refuted`. List operations for all sequences of add/trim/lower/clear; reading a value in parts holds when no string is empty, refuted when the value starts with a delimiter (StringList_AppendLast loses the string).
* **C38 Comments and surrounding blanks never reach a value** (partial). Lines of a file; loop of ReadLine over fgets.
  Theorems: `C38_lines_partial`, `C38_shape`, `C38_returns`, `C38_long_partial`, `C38_skip_partial`, `C38_comment_refuted`, `C38_long_refuted`, `C38_lost_refuted`, `C38_safety_refuted`. The full statement is false of the code (C38_*_refuted: a '#' after ';', a line that exactly fills the buffer, a long comment at the end of the file, a blank unterminated last line); proved for files whose lines fit and whose comments are simple (C38_lines_partial), for long lines (C38_long_partial) and skipped rests (C38_skip_partial).
* **C39 Repeated options accumulate according to their strategy** (partial). Option table as a map from names to values; fold over lines.
  Theorems: `C39_names`, `C39_split`, `C39_boolean`, `C39_path`, `C39_values_partial`, `C39_long_refuted`, `C39_long_values_partial`, `C39_getters_partial`, `C39_taken_partial`. Full characterisation of every option's value after set-up and reading, for files whose lines fit the 2048-byte buffer and are C38-conformant (C39_values_partial), and with lines of any length for list options (C39_long_values_partial: the value is put together from its parts, if no string but the last is empty and the last part begins with a visible character); prepended texts for path options excluded. C39_long_refuted: the rest of an over-long line for another option, or for none, can be taken as option lines. wordexp is a parameter. C39_getters_partial: what ConfigGetRawString (the first string of the list), ConfigGetNumberOfStrings, ConfigGetStringList, ConfigGetInt32 and ConfigGetBoolean give for every name after such a file; asking for a value of another type than the option's reads the wrong member of a union and is outside the claim. C39_taken_partial: with long lines for other options or for none too: each 2047 bytes of them are taken as a line of their own. Long lines for path options are outside.
* **C40 IPv4 addresses survive conversion to text and back** (proved). Printing and scanning of decimal numbers.
  Theorems: `C40_round_trip`, `C40_reads`. All 2^32 addresses; also every dotted decimal text with leading zeros.
* **C41 IPv6 addresses survive conversion to text and back** (proved). The same for hexadecimal groups and the longest run of zeros.
  Theorems: `C41_round_trip`, `C41_text`, `C41_small`. All 2^128 addresses, independent of uninitialised stack contents. C41_small: digits are printed in small letters.
* **C42 Upstream servers are used in rotation** (partial). Counter modulo 2^32.
  Theorems: `C42_in_range`, `C42_rotation_partial`, `C42_every_server_partial`, `C42_rotation_refuted`. False of the code at the wrap of the 32-bit counter unless the number of servers divides 2^32 (_refuted). Proved before the wrap, and always if it divides; the index is in range always.
* **C43 Table sizes are prime** (partial). Trial division; next prime by search.
  Theorems: `C43_test`, `C43_next_partial`, `C43_next_refuted`. False of the code for 0 and 1, which give 3 (_refuted). Proved for 2..2^31-1, and the primality test for all numbers.
* **C44 Replacing substrings is exact and stays in the buffer** (partial). Specification by splitting at the leftmost occurrences.
  Theorems: `C44_replace_partial`, `C44_unique`, `C44_replace_refuted`. Proved for non-empty patterns and when the memory is there; the empty pattern makes the real loop hang (refuted).
* **C45 Disabled types and domains are refused, everything else is not** (partial). Filter (types: C20, domains: C25, C38) and the bytes of the refusal.
  Theorems: `C45_filter_partial`, `C45_reply`, `C45_root_refuted`, `C45_case_refuted`, `C45_sent`. Proved for queries with a non-empty name, numbers below 30 bits and rule files with conformant lines (C38) below 512 bytes; refuted for the root query (stack contents decide) and for rules with capital letters (never apply). The reply carries response code 0, not 'refused' (C45_reply). fnmatch is a parameter.
* **C46 A TCP reply is delivered whole however it is segmented** (partial). recv as a list of events, loop of TcpM_Works.
  Theorems: `C46_sound`, `C46_whole_partial`, `C46_whole_refuted`, `C46_prefix_refuted`. Partial: the bytes of a message are always put together correctly and nothing incomplete is passed on, but the length passed on is that of the last recv, so only messages in one segment are delivered whole (refuted otherwise); a split length prefix closes the connection (refuted).
* **C47 Queries never see a half-updated rule table** (partial). Transition system of one reloading thread and any number of query threads; inductive invariant.
  Theorems: `C47_tables`, `C47_filter_partial`, `C47_memory`, `C47_filter_refuted`. Interleaving semantics of one reloading thread and any number of query threads with a read-write lock (sequentially consistent; lock as a counter and a flag). Proved for hosts, address rules and server groups (C47_tables) and that nothing is freed while in use or twice (C47_memory). For the disabled domains the pointer is NULL between free and assignment and is tested outside the lock, so a query can be let through during a reload (C47_filter_refuted); otherwise it holds (C47_filter_partial).
* **C48 Statistics add up** (partial). Table of counters on C24-C26; sums.
  Theorems: `C48_page_partial`, `C48_once`, `C48_wildcard_refuted`. Page contents proved for names without * ? [ (any number of events, any pauses for writing); for all names every event is counted exactly once and each total is the sum of its kinds. Refuted for names with wildcard characters: a query for * makes the page lose every domain not yet listed. Counters are unbounded in the model.
* **C49 Growable arrays keep their elements** (proved). Memory of the array and its growth.
  Theorems: `C49_up`, `C49_walk`, `C49_set`, `C49_down`. Both growing-up and growing-down arrays; every sequence of operations.
* **C50 Cached PTR and NS answers keep their type** (partial). Generator of cached records by type.
  Theorems: `C50_generate_keeps_type_partial`, `C50_generate_keeps_type_refuted`. False for PTR and NS, which are served as CNAME (_refuted). Proved for raw types, CNAME and MX.
* **C51 Rewriting an existing message keeps its content** (partial). StripedLength and Init on encoded messages.
  Theorems: `C51_init_from_message_partial`, `C51_init_from_message_refuted`. Content proved for every well-formed message that fits; that it fits is not checked by the code (_refuted).
* **C52 Adding EDNS changes nothing else** (partial). Iterator and generator on the message.
  Theorems: `C52_fake_edns_partial`, `C52_fake_edns_refuted`. Proved for queries without additional records and 11 free bytes; with another additional record the code never finishes (_refuted).
* **C53 Hosts items apply whatever the letter case of their domain** (partial). From C27.
  Theorems: `C53_capitals_never_apply`, `C53_lower_case_partial`, `C53_case_refuted`. False: names in hosts lines are not brought to lower case while those of questions are (C53_case_refuted, C53_capitals_never_apply). Proved for domains written in lower case.
* **C54 Every standard IPv6 text is understood** (partial). Specification: grammar of texts of RFC 4291.
  Theorems: `C54_reads_partial`, `C54_zone`, `C54_unspecified_refuted`. Missing: '::' alone is reported as a failure (C54_unspecified_refuted), so rules on it are dropped.
* **C55 Every query has exactly one fate, decided in a fixed order** (proved). Order of the tests in the front ends.
  Theorems: `C55_fate`. Hosts_Get and DNSCache_FetchFromCache enter as booleans (answered or not).
* **C56 Messages sent over TCP are framed correctly** (partial). send as a list of events.
  Theorems: `C56_send_partial`, `C56_send_refuted`, `C56_back`, `C56_back_refuted`. Proved when the system takes all bytes or none; refuted for partial sends: TcpM_SendWrapper starts again from the first byte, and an answer to a client is cut.
* **C57 A TCP client's query is processed however it is segmented** (partial). recv as a list of events.
  Theorems: `C57_sound`, `C57_whole_partial`, `C57_whole_refuted`, `C57_parts_refuted`. Soundness for all segmentations; completeness for a query in one segment; refuted otherwise (the front end calls recv once).
* **C58 The SOCKS proxy negotiation leaves the connection at the server's data** (partial). The handshake over recv and send events.
  Theorems: `C58_proxy_partial`, `C58_name_refuted`, `C58_split_refuted`. Proved for answers in one segment and names of at most 125 bytes; refuted for longer names (char overflow) and for split answers (ClearTCPSocketBuffer does not wait).
* **C59 A received message is labelled with its own question** (partial). Walk of the parser over the encoding of any message; the questions, then the records.
  Theorems: `C59_labelled`, `C59_asked_unique`, `C59_blocked`, `C59_other_class`, `C59_any_packet`, `C59_no_question_refuted`, `C59_nul_refuted`, `C59_two_questions_refuted`. Proved for every message in the scope of the statement. Outside of it: a message without a question keeps the name of the one before, a NUL in a label ends the name, and with two questions the second's name goes with the first's type (the refuted theorems).
* **C60 A datagram is attributed to the client that sent it** (partial). C59 for each turn of the front end's loop, over any buffer contents between turns.
  Theorems: `C60_attributed_partial`, `C60_other_client_refuted`. Holds for datagrams that are accepted by C59's conditions; false in general: IHeader_Fill's result is ignored, so that a question of class CH from one client is processed with the name and address of the previous client (C60_other_client_refuted).
* **C61 What is cached from a response is exactly its records** (partial). Walk of the parser over any message; each record is one addition of C12-C15, whose histories then apply.
  Theorems: `C61_stored_partial`, `C61_stored_unique`, `C61_served_was_received_partial`, `C61_any_packet`, `C61_short_mx_refuted`, `C61_beyond_packet_refuted`. Proved for well-formed responses whose names can be read (C61_stored_partial, C61_served_was_received_partial: whole histories); for arbitrary bytes C61_any_packet shows that only records of the expected shape are added and nothing is written outside. The statement for all packets is false: an MX record with two bytes of data is stored and read past its end when answered (C61_short_mx_refuted), data behind the end of a packet is stored from earlier traffic (C61_beyond_packet_refuted).
* **C62 Listing an answer for the log stays within the log buffer** (partial). Invariant of the loop: room left, lines so far, records still to come.
  Theorems: `C62_in_buffer_partial`, `C62_counts_refuted`. Proved for packets whose header counts fewer than 100000 records in all (C62_in_buffer_partial); with more the last line can be one byte too long for the buffer (C62_counts_refuted, a packet of 632 bytes).
* **C63 An answer from the cache is a proper reply to the question** (partial). Invariant of the message being built (from C08-C11, C50, C51) through the alias chain, the records, the flags, the OPT record and the compression.
  Theorems: `C63_cached_answer_partial`, `C63_not_cached`, `C63_long_query_refuted`, `C63_ns_refuted`, `C63_does_not_fit_refuted`, `C63_hosts_as_aliases`, `C63_never_that_type`. Proved for A, AAAA, HTTPS, TXT, MX and (single) CNAME questions whose reply fits behind the query in the buffer, composed with the cache history, the alias chain, the generator and the compression. What is sent for NS, PTR and (several) CNAME records is characterised for all histories and queries by C63_hosts_as_aliases: a chain of CNAME records, each host an alias of the one before; so the records stored are never what is sent (C63_never_that_type, witness C63_ns_refuted). Refuted: a record that does not fit is left unfinished in the reply (C63_does_not_fit_refuted); a query whose questions and answers are longer than the rest of the buffer is copied beyond its end (C63_long_query_refuted).
* **C64 Every query passed to a UDP server group gets at most one reply, its own, or times out** (partial). Transition system of worker, sweep and callers over the table of C20-C23; invariants over histories; a well-formed reply by C59, C32, C61.
  Theorems: `C64_one_reply`, `C64_reply_partial`, `C64_query_partial`, `C64_timeouts`, `C64_stays_up`, `C64_fresh_socket`, `C64_stale_refuted`, `C64_ends`. C64_one_reply: all histories, any bytes: conservation of queries, each reply goes to the client of the matched query with its id. C64_reply_partial: exact effect of a well-formed reply in every reachable state (table, cache, client, flags); missing: address records with data of another length (C32), replies that are no messages. C64_query_partial: exact effect of a query that the EDNS step can handle (C52). C64_timeouts, C64_stays_up, C64_fresh_socket: the other steps. C64_stale_refuted: a datagram of three bytes makes the rest of another client's answer go out, since the result of IHeader_Fill is ignored. C64_ends: when a socket cannot be made the module ends for good: no client gets a reply from it any more.
* **C65 The hosts files answer with a proper reply** (partial). Invariant of the message being built, as in C63, composed with C27 and C28 for the record.
  Theorems: `C65_reply_partial`, `C65_refused`, `C65_alias`, `C65_nothing`, `C65_untouched`, `C65_two_questions_refuted`, `C65_long_query_refuted`. C65_reply_partial: with two loaded tables whose lines say ts1 and ts2 about the name (specification of C27/C28), a well-formed query without answers whose reply fits gets is_reply with the record of the file. C65_refused, C65_alias, C65_nothing: the other three verdicts; C65_untouched: for every query and every state, one that goes on is as it was. False parts: C65_long_query_refuted (a query of more than half of the buffer is copied beyond its end), C65_two_questions_refuted (the name looked up is that of the last question, the owner in the reply is that of the first). Missing: queries with answers in them, alias targets that are not host names.
* **C66 Aliases of the hosts files are followed and the client gets the result** (partial). Turns of the thread over the table of C20-C22 (invariant over histories); the query by C59, the message by the invariants of C63 and the walk of the parser over any reply.
  Theorems: `C66_turn`, `C66_query`, `C66_no_alias`, `C66_reply_partial`, `C66_types_refuted`, `C66_late_refuted`, `C66_order_refuted`. C66_turn: for every turn in every reachable state, what is kept, forgotten and to whom something is sent. C66_query, C66_no_alias: what is asked. C66_reply_partial: the message for the client, when no other pending query shares identification and hash of the name, the hashes are tame (C22), the reply's records follow the chain of aliases and the message fits. The full statement is false: C66_types_refuted (two clients with one identification asking for one name with different types: a reply goes to the wrong one), C66_late_refuted (a reply after its query was given up goes to the client whose query took its place, with the wrong target), C66_order_refuted (records not in chain order get wrong owners).
* **C67 Chains of aliases in the hosts files come to an end** (partial). Composition of Hosts_Get and the turns of C66; induction over the chain and over the number of rounds.
  Theorems: `C67_chain_partial`, `C67_level`, `C67_endless_refuted`, `C67_cycle_refuted`. C67_chain_partial: chains of any length that end, in any reachable state of the thread; C67_level: the reply of one round is taken over entirely by the round before, so that C66_reply_partial applies again. The full statement is false: C67_endless_refuted (names that are aliases of one another: for every number of rounds, a new query each round, all kept, nothing sent), C67_cycle_refuted (the same for a file of two lines).
* **C68 A set of sockets watches exactly the sockets in it** (partial). Representation of the tree (C20) and of the bit set by one list; induction over histories; the walk over the tree by the enumeration of C20.
  Theorems: `C68_set_partial`, `C68_select`, `C68_no_socket`, `C68_data_partial`, `C68_data_refuted`, `C68_many_refuted`, `C68_twice_refuted`, `C68_interrupted_refuted`. Proved for descriptors below 1024 that are in the set at most once (_partial). Refuted: a descriptor from 1024 on is written beyond the set; data shorter than the set's data size is followed by a memset at a wrong offset, beyond the node; a socket added twice and removed once is closed at the end but not watched; an interrupted wait that then times out is reported as an error.
* **C69 Clients of the TCP front end get the replies to their own queries, and connections are closed** (partial). Transition system of turns and replies over the kernel table of open sockets; invariant over histories; C57 for the messages, C68 for the sockets.
  Theorems: `C69_turn`, `C69_closed`, `C69_own_partial`, `C69_leak_refuted`, `C69_other_refuted`, `C69_reply`, `C69_reply_closed`. Turns and closing are proved in full for descriptors that the kernel gives out (not in use, below 1024). The reply goes to the query's connection as long as the front end has not closed that socket (_partial). Refuted: the socket of a client that has gone is never closed; after bad data closed a socket with a query pending, its reply goes to the next client that gets the descriptor. C69_reply, C69_reply_closed: a reply goes to nobody or to a connection that the front end has not closed; on a socket it closed and has no new connection on, to nobody.
* **C70 The TCP upstream module uses its connections in an orderly way and closes them** (partial). Transition system of turns over a log of socket events; each socket is in one place (a set, or in hand); invariant relating places, the log and the pending queries; C68 for the sets, C56 for sends, C46 for replies.
  Theorems: `C70_orderly`, `C70_turn`, `C70_sent`, `C70_end_partial`, `C70_end_refuted`, `C70_interrupt_refuted`, `C70_parallel_refuted`, `C70_rand_refuted`. C70_orderly, C70_turn: for every history the events on the sockets are lawful (send only on an idle connection to a server, receive only where a query is outstanding, close only what is open), every open socket is in exactly one set, and a turn sends nothing, the query that came, or one retry. C70_sent: when sockets are ready, sends complete and connecting succeeds, a query goes to one server, or once to each. Partial: the module ends when select is interrupted and then times out (C70_interrupt_refuted); at the end the socket for the callers is closed twice (C70_end_partial says what is closed, C70_end_refuted that it is not lawful); with sockets that are not ready in parallel mode a query may be sent twice to one server and not to the other (C70_parallel_refuted); the sum of rand and an index may overflow (C70_rand_refuted).
* **C71 A query over TCP gets at most one reply, which goes to the client that asked** (partial). The invariant of C70 with the account of C64; the handling of a reply is the one of the UDP module.
  Theorems: `C71_one_reply`, `C71_reply_partial`, `C71_empty_refuted`. C71_one_reply: for every history the queries taken in are, as a multiset, those that got one reply, those that timed out and those pending. C71_reply_partial: for every acceptable reply that arrives in one piece, in every reachable state, what the client gets, what is pending and what the cache takes in. Partial: replies that arrive in more pieces (C46) and messages that are not acceptable are covered by C71_one_reply only; after a reply of length 0 the client gets its own query back (C71_empty_refuted).
* **C72 A configured server address is used exactly as written** (partial). Texts cut by the grammar of the specification; inet_addr, strtoul and sscanf as functions; the lists by C37.
  Theorems: `C72_reads_partial`, `C72_rejects`, `C72_servers_partial`, `C72_octal_refuted`, `C72_range_refuted`, `C72_port_refuted`, `C72_wrap_refuted`, `C72_memory_refuted`, `C72_none_refuted`, `C72_long_refuted`. Proved for well-formed texts (dotted decimal without leading zeros, bracketed IPv6 of at most 45 characters, ports below 65536) and, at the level of a server list, for lists whose other items are recognisably no addresses. Refuted: leading zeros are octal; numbers out of range and a fifth component give 255.255.255.255; a missing port number is read from the stack; ports wrap at 65536; a text of more than fifteen characters is cut and the rest is read as another address (C72_long_refuted); nine groups before '::' write behind the address; a group without addresses is accepted and the first query divides by zero. inet_addr, strtoul and sscanf of glibc are modelled from their documentation.
* **C73 The program listens on exactly the configured interfaces that the system grants** (partial). Induction over the items, with C72; the answers of the system are a parameter.
  Theorems: `C73_opens_partial`, `C73_listen_refuted`. Proved if every item is well-formed or recognisably not an address and no call of listen fails. Refuted: a failing listen leaves the socket open and drops the interfaces behind it.
* **C74 Internal sockets are bound to the loopback interface only** (proved). Induction over the attempts, with C72.
  Theorems: `C74_loopback`. The answers of the system are a parameter.
* **C75 A good-IP list always gives one of its configured addresses, the fastest found by the last check** (partial). Names by C25; the lists by an invariant (a permutation of the configured addresses) over all checks.
  Theorems: `C75_tasks`, `C75_always`, `C75_fastest`, `C75_stale_refuted`, `C75_sockets_refuted`, `C75_closed`, `C75_long_name_refuted`, `C75_wildcard_refuted`. Proved for configurations whose names have no wildcards and are declared once. Refuted: an item without port or address takes it from the stack; a socket that cannot be made non-blocking stays open; a name with a wildcard is never found. The exchange of two addresses is atomic in the model; in the program it is three memcpy calls without a lock.
* **C76 The cache survives a restart through its file** (partial). Cfile: the bytes of the mapped file as a function of the state of the cache (header, records, nodes, slots), and the reading of the same bytes after DNSCache_Init. Read back what was written, for every state whose numbers fit their fields; that they fit is an invariant of all operations (Cfile_Proofs); then the simulation of C13-C16 goes on over a restart, by induction on the history.
  Theorems: `C76_restart`, `C76_same_answers`, `C76_area`, `C76_refused`, `C76_new`, `C76_fails`, `C76_untouched_refuted`, `C76_damaged_refuted`. Proved in full for the restart itself (C76_restart, C76_same_answers: any history with any number of restarts, through DNSCache_Init on the bytes of the file, gives the records and answers of the operations alone; the one exception is the read outside of the memory of C12, which needs a CacheSize below 711997), for files of another version or size (C76_refused), for a new cache (C76_new) and for the failures (C76_fails). Two parts of the statement are false of the code: a refused file is changed all the same, because CREATE_FILE_MAPPING writes a NUL at offset CacheSize before anything is checked (C76_untouched_refuted), and nothing but the version and the size is checked, so a damaged file makes the program read outside of its memory (C76_damaged_refuted). Restarts happen between operations; a crash in the middle of one is not modelled. Layout of 64-bit Linux; pow(log(CacheSize), 2) is a parameter between 125 and 100000.
* **C77 The addresses that are blocked and replaced are exactly those of the configuration** (partial). Ipload: loading composed of ReadLine (C38), the splitting of lines and the calls of C31/C32; specification: the rules an option list and a file ask for, as relations on texts.
  Theorems: `C77_effect_partial`, `C77_none`, `C77_fails`, `C77_update`, `C77_total`, `C77_long_partial`, `C77_line_refuted`, `C77_junk_refuted`. For rules that are written well or are no address at all and files whose lines are read as written (C38); within the limits of C31 and C32. A line of exactly 511 characters swallows the next one (C77_line_refuted); a mistyped substitute is not noticed and whatever is on the stack is put into replies (C77_junk_refuted).
* **C78 Log messages are kept whole and in order, and full log files are put away without loss** (partial). Log: the files as a function from numbers, Log_Init, CheckLength, Log_Print; specification: an inductive relation between messages and files.
  Theorems: `C78_kept_partial`, `C78_whole`, `C78_undivided`, `C78_restart`, `C78_off`, `C78_fails`, `C78_rename_refuted`, `C78_overwritten_refuted`, `C78_emptied_refuted`, `C78_big_refuted`. For paths of at most 252 characters, files below 2 GB, readable old files, and if renaming and creating files succeed. Otherwise: a failure writes to a closed file or to NULL (C78_rename_refuted), an unreadable old file is replaced (C78_overwritten_refuted), an unreadable log file is emptied (C78_emptied_refuted), a file of 2 GB grows on (C78_big_refuted).
* **C79 An update of the hosts replaces the hosts file only when something was obtained** (partial). Induction over the attempts and over the sources; the files as a function of paths.
  Theorems: `C79_obtained_partial`, `C79_ends`, `C79_thread`, `C79_unwritable`, `C79_blocked_refuted`, `C79_rename_refuted`. C79_obtained_partial: full effect of an update on all files for sources that come to an end, if the temporary files can be written and the rename succeeds; C79_ends: with a limit on the attempts they always come to an end; C79_thread: the events of the updating thread. Not true of the code: the thread asks without a limit, so one remote source that is never obtained keeps it waiting for ever and neither the other sources nor any reload happens (C79_blocked_refuted); the old hosts file is removed before the rename, so a failing rename loses it, and success is reported (C79_rename_refuted). An unwritable temporary file: nothing happens (C79_unwritable). Any URL that begins with the letters file counts as local. Not modelled: libcurl and wget themselves, the waits between attempts, failing writes, what happens if a source is one of the temporary files.
* **C80 The command line and the configuration file mean what the manual says, and serving starts only when everything is there** (partial). Induction over the arguments; C39 for the literal table of options; case analysis for the start.
  Theorems: `C80_args`, `C80_args_exit`, `C80_args_refuted`, `C80_args_all`, `C80_file_partial`, `C80_directory`, `C80_options_partial`, `C80_default`, `C80_start`, `C80_home_refuted`, `C80_user_refuted`, `C80_comma_refuted`. C80_args, C80_args_exit, C80_args_all: every command line, except that with -f as the last argument the code reads behind the end of the arguments (C80_args_refuted). C80_options_partial, C80_default: all options for every file whose lines fit in the buffer (see C39), for home directories without a comma and of at most 986 bytes (C80_file_partial: at most 298 for the default configuration file). C80_start: the order of starting. Not true of the code: a home directory name of 299 bytes or more overruns a buffer (C80_home_refuted), a user without an entry in the user database makes it read NULL even with -f (C80_user_refuted), a comma in the home directory cuts the default paths (C80_comma_refuted). Not modelled: output, fork, the environment variables' later use (expand is a parameter).
* **C81 Names are answered from the hosts that were configured and fetched** (partial). Dyn_Model: DynamicHosts_Load as a loop over ReadLine with 320 bytes feeding hosts_load, DynamicHosts_Init, StaticHosts_Init and the thread of C79 followed by the load. The lines of the joined file are those of the sources (file_lines_app), so the table is hosts_of of them; C27 and C28 give the answers.
  Theorems: `C81_file_partial`, `C81_kept`, `C81_update_partial`, `C81_script`, `C81_start`, `C81_off`, `C81_append`, `C81_answers_partial`, `C81_long_partial`, `C81_line_refuted`, `C81_interval_refuted`. Proved for lines that ReadLine gives as written (at most 318 characters and C38's other conditions; readable) and within C27's reading of lines (listed). C81_update_partial composes C79 with the loader; C81_answers_partial adds AppendHosts and C28. C81_line_refuted: a line of exactly 319 characters takes the next one with it. C81_interval_refuted: ModulesUpdateInterval above 2147483 seconds overflows the milliseconds (wrapping assumed; undefined in C). Missing: the load is one step, the lock around the exchange of tables is not modelled.
* **C82 Replacing the server groups never touches freed memory, and the old ones end** (partial). A transition system with one step per access to the shared variables; an invariant over all interleavings relates the program counters, the flags and what has been freed; the end is shown by constructing a schedule from every reachable state.
  Theorems: `C82_safe_partial`, `C82_freed`, `C82_stops`, `C82_ends`, `C82_fail_refuted`, `C82_fatal_refuted`, `C82_name_refuted`, `C82_pending_refuted`. Transition system over the shared variables of every group of one load (IsServer, WorkThread, SweepThread, addresses, context), with the worker, sweeper, query, loading and cleaning threads as the code's steps, sequentially consistent. Full: each part of a group is freed at most once, and exactly once before the groups' memory is given back (C82_freed); at most one turn after the order to stop (C82_stops); from every reachable state after a replacement the memory can be given back (C82_ends, possibility from every state, no fairness assumed). C82_safe_partial: nothing touches freed memory provided no load fails after a group was started and no UDP group gives up while it is current, except for the server's name in an error message of a group from a group file. The conditions are needed: C82_fail_refuted (a failed load calls Modules_Free directly, while the workers of the groups already started run), C82_fatal_refuted (a UDP worker that cannot open a socket frees addresses and context, UdpM_Send uses them), C82_name_refuted (ServiceName points into the freed arguments of the group file), C82_pending_refuted (the worker ends without another turn, pending queries lose their replies). A group's strings are taken as freed at the start of the group. How the current map is found under the lock is C47. The parts of a group are blocks of memory here; that the free of the proxies of a TCP group is itself done twice within one cleanup is C91.
* **C83 Asking again within the lifetime is answered from the cache with the records of the response** (partial). No new model: the models of storing (C61) and of answering (C63) are run after each other. New: an invariant that the number and the sizes of the nodes are bounded by the number of records stored so far (Again_Proofs), so that there is room; then the records stored by the response are exactly what a lookup of its names sees at any later time, by induction over the later events (Again2_Proofs), and the aliases and records of the reply follow.
  Theorems: `C83_again_partial`, `C83_ignore_partial`, `C83_sound_partial`, `C83_repeated_refuted`, `C83_datagram_partial`, `C83_connection_partial`. C83_again_partial: from the bytes of the responses to the bytes of the reply, for all histories before (earlier records of the same names expired) and after (other names, responses that are not first, removals), for a cache with 544 bytes for every record that has come so far: the query is answered as by a cache that holds exactly the records of the response. C83_datagram_partial and C83_connection_partial: the same through the whole program, from the bytes of a datagram or of a TCP connection to what is sent and where, unless the configuration has something about the name; no server is asked. C83_ignore_partial: with IgnoreTTL, when nothing is removed, the records are sent at any later time with the TTLs that they came with. C83_sound_partial: for any history and settings, every record of a reply is a record of a response and its TTL ends with its lifetime. C83_repeated_refuted: a record that is in the cache already keeps its old lifetime when a response brings it again, so within the lifetime that the second response gives it the question is not answered. C83_again_partial, C83_datagram_partial and C83_connection_partial hold with and without CacheParallel; with it every response counts, not only the first, and its records of one name, type and class must have the same lifetime and come within one second. Missing: a full cache (records may then not be stored), with IgnoreTTL names that several responses have records for, and what C61 and C63 miss.
* **C84 Timed tasks on Windows run in order, not early, and none is lost** (partial). Transition system of the Windows scheduler and its message queue (threads post, the auto-reset event, the phases of the scheduler, time in milliseconds with 32-bit differences). Invariants over all runs: numbers of tasks (permutation), sortedness and least held task, event set while sleeping with messages, due times relative to the waits cut short. Two concrete runs refute not being early.
  Theorems: `C84_none_lost`, `C84_wakeup`, `C84_never_stuck`, `C84_drain`, `C84_last_first`, `C84_order`, `C84_timeout`, `C84_arrival`, `C84_arrival_at_once`, `C84_stale`, `C84_again`, `C84_posted`, `C84_not_early_partial`, `C84_stale_refuted`, `C84_twice_refuted`. The program as compiled for Windows. Proved for all interleavings: none lost, no lost wake-up (a sleeping scheduler with a message has its event set), the scheduler is never stuck, messages are all taken in as many turns, last first, the started task has the least remaining time, the effect of every turn in full. 'Not early' is false and refuted twice: (1) the event stays set when its message was found without waiting, and the next wait then ends at once and starts the task as if its time were over (C84_stale, C84_stale_refuted); (2) when a task arrives, the time waited is subtracted twice from the task waited for, since it is put back into the queue before the queue is reduced (C84_arrival, C84_twice_refuted). C84_not_early_partial bounds how early a task can be by the sum of the interrupted waits when no event is stale. Assumed: nodes can be allocated, delays below 2^31 ms, the clock does not go back.
* **C85 From the query to the answer, all stages together** (partial). Serve_Model composes is_disabled_type/is_disabled_domain, send_refused, hosts_get, fetch, send_back and choose as MMgr_Send does (mmgr.c 818-877) and puts udp_turn, or the reading of a query from a connection (tcp_query), in front of it; Serve_Spec has the relation due (what the client is due) over the configuration as the user writes it; serve_ok goes through the stages with the theorems of C45, C65, C63 and C33, C85_datagram_partial adds C59, C85_connection_partial C57 and C59.
  Theorems: `C85_served_partial`, `C85_datagram_partial`, `C85_connection_partial`, `C85_one_message`, `C85_unsent_refuted`, `C85_from_cache`, `C85_no_hosts_partial`, `C85_alias_lost`. The functions of C45, C28/C65, C63, C33, C57 and C59 composed into one model of MMgr_Send and of a turn of the UDP and of the TCP front end; the theorems say that the result is one of the cases of a relation (due) written over the configuration only. Questions that the cache answers with something else (NS, PTR, several CNAME records, C63) and cached replies that cannot be sent are characterised by C85_from_cache, NS and PTR questions for which nothing is stored by C85_no_hosts_partial. Partial: replies that do not fit behind the query (C63), the root name, other numbers of questions (C59, C65), a query that arrives on its connection in other parts than C57 allows. When the sendto to the program's own alias thread fails, the query is served as without hosts files (C85_alias_lost). Refuted (C85_unsent_refuted, in general C85_from_cache): when the cached reply cannot be sent, MMgr_Send goes on and forwards the reply, which is now in the buffer, to a server group.
* **C86 A query that is passed on gets the reply that arrives in time** (partial). No new model: Serve_Model and Udpm_Model. Trip_Spec says what the client is sent and which reply is a response to its query; Trip_Proofs has the invariant over all histories (step_keeps, run_keeps); C86_reply_partial joins C85, C59 and C64.
  Theorems: `C86_handed`, `C86_sent_partial`, `C86_reply_partial`, `C86_lost_refuted`. C85's outcome N_group composed with the model of the UDP module (C64): the invariant is that a query stays in the table until a reply goes to its client or a sweep more than two seconds later. Partial: no other query of the history has the same identification and hash of the name; the hashes of queries pending with one identification lie in one half of the range (otherwise refuted: C86_lost_refuted, the defect of C22); that a client has 'been sent a reply' may have been by a datagram that was none (C64_stale_refuted); that the cache takes the response in without a fault is C61, here it is a step that is assumed to return; servers are written to only while there is a socket.
* **C87 A text that is no address is not taken for one** (partial). IpAddr_Parse on an arbitrary text; one conversion of sscanf is shown equivalent to a grammar of loosely written numbers (Loose_Spec), then four of them; counting colons bounds the groups that come from the text.
  Theorems: `C87_dots_partial`, `C87_neither`, `C87_written`, `C87_dots_refuted`, `C87_colons_refuted`, `C87_groups`. False of the code. Exact characterisation of the accepted texts with dots (C87_dots_partial: four numbers with blanks and signs, of any size, and anything behind them; 300.-1.2.3x is 44.255.2.3, C87_dots_refuted); every text with a colon but no '::' is accepted as an IPv6 address, missing groups being stack contents (C87_colons_refuted); texts without dots and colons are rejected (C87_neither). sscanf is modelled from its documentation.
* **C88 A query that is passed on to a TCP server gets the reply that arrives in time** (partial). No new model: Serve_Model and Tcpm_Model. Ttrip_Proofs has that time-outs happen only when the clock, read between two states, is more than two seconds on (run_late); goes_on follows one query through the settlement of C70; C88_reply_partial joins it with C59 and C71.
  Theorems: `C88_sent`, `C88_reply_partial`, `C88_ap_refuted`. C85's outcome N_group composed with the model of the TCP module (C70, C71). Partial: no other query of the history has the same identification and hash of the name; the hashes of queries pending with one identification lie in one half of the range (see C86_lost_refuted: the same table); the response arrives in one piece, or with its length in a piece of its own (C46); that the cache takes the response in without a fault is C61, here it is a step that is assumed to return. Refuted with the option against pollution (C88_ap_refuted): unlike for UDP, no OPT record is added to what is sent to a TCP server, but replies without one are discarded, so that queries without OPT are never answered.
* **C89 Each server of a UDP group can be reached, whatever its address family** (partial). The list of servers of UdpM_Init, and the family of the socket as a ghost component of the steps of the UDP module (Fam_Model over Udpm_Model). Proved by an invariant over all histories: an open socket has the family of all servers that can be asked. Refuted by a history with a time-out for a list of both families.
  Theorems: `C89_servers_partial`, `C89_family_partial`, `C89_mixed_refuted`, `C89_parallel_refuted`. C89_servers_partial: the servers of a group for well-formed items (C72). C89_family_partial: any text, any history; with Parallel, or if all addresses are of one family. Refuted otherwise: without Parallel the socket keeps the family of the server that was current when it was made, so that after a time-out queries for a server of the other family are sent from the wrong socket, until more than eight turns with time-outs and an idle turn let it be made anew (C89_mixed_refuted); with Parallel the servers of the other family are never asked (C89_parallel_refuted). That sendto fails for an address of another family is the system's, not modelled.
* **C90 Each configured server group is set up as written** (partial). Grp_Model: the load of Mmgr_Model with what each module is made of. Specification: the groups of a configuration by their own keys, the addresses that a text names (C72). Induction over the settings; refuted on two configurations.
  Theorems: `C90_load_partial`, `C90_protocols`, `C90_case_refuted`, `C90_proxy_refuted`. C90_load_partial: for server texts whose items are well-formed addresses (C72), with local ports available (C74) and enough fuel; the load gives the groups of the configuration, or leaves the groups in use. Refuted beyond that: the path of the list of domains in a group file is put into small letters, so a file with capital letters is not found (C90_case_refuted); a TCP group whose proxies name no address is not refused: its servers' addresses are freed twice (C90_proxy_refuted, C91).
* **C91 A server group gives back its memory exactly once** (partial). Tmem_Model: the mallocs and frees of setting up and ending a module as lists of events, for every step that can fail. Specification: the set of blocks in use, undefined when a block not in use is freed. Case analysis over the thirteen steps and the numbers of addresses.
  Theorems: `C91_udp`, `C91_set_up`, `C91_stops`, `C91_each`, `C91_proxies_each`, `C91_plain_partial`, `C91_proxies_refuted`, `C91_init_refuted`. C91_udp is the full claim for UDP groups. C91_plain_partial: TCP groups without proxies give everything back once, but for the pullers of the servers, which are lost at each end. C91_stops: exactly what is freed twice or lost for each step of the setting-up at which it stops. C91_each and C91_proxies_each: the same block by block, also after something was freed twice. Refuted: a TCP group with proxies frees the addresses of the proxies twice at its end (C91_proxies_refuted), and one whose proxies name no address frees the addresses of its servers twice (C91_init_refuted). Blocks stand for the allocations as the comments in Tmem_Model say; the struct of the module itself, sockets and threads are in C82.
* **C92 The log shows what a response has** (partial). Specification Shown_Spec: the values of a record of each type, as text. Model: Rdata_Model (of C62). By induction on the records: each is textified exactly, the iterator is at the next one.
  Theorems: `C92_listing_partial`, `C92_nothing_partial`, `C92_shown_unique`, `C92_all_refuted`. Partial: proved for well-formed responses with a question whose records (up to the first of another class than IN, OPT aside) can be read, when the text fits (C92_listing_partial; C92_nothing_partial for responses without records); C92_shown_unique: what must be shown of a record is determined, but for the choice among texts of an IPv6 address. C92_all_refuted: a record that can be read is not shown if it comes behind one of another class. For arbitrary bytes and for texts that do not fit see C62.

## Wrong programs

`seeded/LOG.jsonl` has one line per seeded bug: a definition of a model file was changed in a scratch copy, the build was run, and the
theorems that failed are listed. Where a change that falsifies a claim went unnoticed, the theorem was tightened or one was added
(field `theorems_tightened`).
