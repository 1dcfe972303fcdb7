{"id": "C01", "title": "Domain names survive the trip to the wire and back", "statement": "Writing a dotted domain name as a DNS wire name and reading it back yields the identical text, and the reader reports having consumed exactly the number of bytes the writer produced.", "quantifier": "every domain name made of non-empty labels of 1..63 bytes with no dot or NUL inside, every packet position and surrounding bytes, every sufficiently large output buffer", "why_tests_cant": "the set of names and of packets they can be embedded in is unbounded; a test samples a handful", "anchors": ["dnsgenerator.c:DNSLabelizedName", "dnsparser.c:DNSGetHostName"]}
{"id": "C02", "title": "Compressed names expand to the name they denote", "statement": "Reading a name that ends in a (possibly nested) compression pointer yields the dotted concatenation of the labels the RFC 1035 decoding of that position denotes, and reports as consumed only the bytes up to and including the first pointer.", "quantifier": "every packet, every offset whose RFC 1035 decoding exists, arbitrary pointer nesting depth, every large enough output buffer", "why_tests_cant": "pointer nesting depth and packet contents are unbounded", "anchors": ["dnsparser.c:DNSGetHostName", "dnsparser.h:DNSLabelGetPointer"]}
{"id": "C03", "title": "Reading a name never writes outside the caller's buffer", "statement": "Whatever bytes the packet contains, reading a name into a buffer of n bytes writes only inside those n bytes, and when it succeeds the buffer holds a NUL-terminated string.", "quantifier": "all packets (including hostile ones), all offsets, all buffer sizes including 0, all numbers of loop iterations", "why_tests_cant": "an attacker chooses the packet; memory safety must hold for every byte string", "anchors": ["dnsparser.c:DNSGetHostName"]}
{"id": "C04", "title": "Reading a name terminates on every packet", "statement": "For every packet and offset the name reader returns after finitely many steps.", "quantifier": "all byte strings and offsets", "why_tests_cant": "non-termination on one crafted packet hangs the service; no finite test set covers all packets", "anchors": ["dnsparser.c:DNSGetHostName"]}
{"id": "C05", "title": "Reading a name never reads outside the packet", "statement": "Whatever bytes the packet contains, the name reader only reads bytes that belong to the packet.", "quantifier": "all byte strings and offsets", "why_tests_cant": "an over-read usually does not crash in a test", "anchors": ["dnsparser.c:DNSGetHostName"]}
{"id": "C06", "title": "Walking the records of any packet is bounded by its header counts", "statement": "Walking the records of any packet returns at most QDCOUNT+ANCOUNT+NSCOUNT+ARCOUNT records, in packet order, each one attributed to the section the header counts assign to its index, and then stops.", "quantifier": "all packets that can be walked without running off memory, any number of calls", "why_tests_cant": "counts are attacker controlled 16-bit fields; record sizes are arbitrary", "anchors": ["dnsparser.c:DnsSimpleParserIterator_Next", "dnsparser.c:DnsSimpleParserIterator_DeterminePurpose", "dnsparser.c:DnsSimpleParserIterator_Init"]}
{"id": "C07", "title": "Walking a well-formed message visits exactly its records", "statement": "For a well-formed message (header, questions, resource records laid out as in RFC 1035) the walk visits every question and record exactly once, in order, reporting section, type, class and, for resource records, TTL, data length and data position as encoded.", "quantifier": "all lists of questions and records with arbitrary (possibly compressed) owner names, types, classes, TTLs and data", "why_tests_cant": "unbounded number and shape of records", "anchors": ["dnsparser.c:DnsSimpleParserIterator_Next", "dnsparser.c:DnsSimpleParserIterator_GetTTL", "dnsparser.c:DnsSimpleParserIterator_RowData"]}
{"id": "C08", "title": "Building a message never writes outside the output buffer", "statement": "Every record-building call either appends a complete record inside the given buffer or reports failure, and in both cases no byte outside the buffer is written.", "quantifier": "every buffer size, every sequence of building calls with arbitrary arguments", "why_tests_cant": "overflow depends on the exact remaining space; all remainders must be covered", "anchors": ["dnsgenerator.c:DnsGenerator_A", "dnsgenerator.c:DnsGenerator_CName", "dnsgenerator.c:DnsGenerator_MX", "dnsgenerator.c:DnsGenerator_AAAA", "dnsgenerator.c:DnsGenerator_EDns", "dnsgenerator.c:DnsGenerator_RawData"]}
{"id": "C09", "title": "Header counts equal the number of records built", "statement": "After any sequence of successful building calls and section switches, the four counts in the header equal the number of records appended to each section.", "quantifier": "every sequence of building calls", "why_tests_cant": "needs to hold after every history of calls", "anchors": ["dnsgenerator.c:DnsGenerator_NextPurpose", "dnsgenerator.c:DnsGenerator_CurrentPurpose"]}
{"id": "C10", "title": "Built records read back unchanged", "statement": "A record appended to a message (A, AAAA, CNAME, MX, OPT) is read back by the record walker with the same owner name, type, class, TTL and data, and earlier records are unaffected.", "quantifier": "every message built so far, every record content that fits", "why_tests_cant": "all combinations of names, addresses, TTLs and positions", "anchors": ["dnsgenerator.c", "dnsparser.c"]}
{"id": "C11", "title": "Compressing the answers keeps their meaning", "statement": "Compressing owner names in a generated answer leaves every owner name, and every other field, denoting the same value as before compression.", "quantifier": "every generated answer that the compressor accepts", "why_tests_cant": "depends on all positions of repeated names", "anchors": ["dnsgenerator.c:DNSCompress"]}
{"id": "C12", "title": "Cache memory regions never overlap", "statement": "After any history of insertions and removals, every cached record's bytes lie inside the cache area, the byte ranges of two live records are disjoint, and record bytes never overlap the index entries.", "quantifier": "every history of insertions (any sizes) and removals, every cache size", "why_tests_cant": "corruption appears only after particular reuse histories", "anchors": ["cacheht.c:CacheHT_FindUnusedNode", "cacheht.c:CacheHT_CreateNewNode", "cacheht.c:CacheHT_RemoveFromSlot", "dnscache.c:DNSCache_GetAvailableChunk"]}
{"id": "C13", "title": "The cache index stays consistent", "statement": "After any history, each live cached record is reachable exactly once from the hash slot of its key, every free entry is in the free pool exactly once, no entry is both live and free, and all chains are finite.", "quantifier": "every history of insertions and removals", "why_tests_cant": "cycles or lost entries need long specific histories", "anchors": ["cacheht.c:CacheHT_InsertToSlot", "cacheht.c:CacheHT_RemoveFromSlot", "cacheht.c:AddTo2DList", "cacheht.c:CacheHT_FindUnusedNode"]}
{"id": "C14", "title": "A cache lookup returns only what was stored under that key", "statement": "A lookup for (name, type, class) returns a record only if a record with exactly this name, type and class was inserted and has not been removed since, and returns the data and TTL stored then.", "quantifier": "every history of insertions, removals and lookups", "why_tests_cant": "wrong answers from hash collisions or stale memory need specific histories", "anchors": ["dnscache.c:DNSCache_FindFromCache", "cacheht.c:CacheHT_Get"]}
{"id": "C15", "title": "The cache never serves an expired record", "statement": "A record is served only while its age is below its lifetime, and the TTL served is the lifetime minus the age, hence positive and not larger than the lifetime.", "quantifier": "every insertion time, lifetime and query time (non-decreasing clock)", "why_tests_cant": "time arithmetic must hold for all instants", "anchors": ["dnscache.c:DNSCache_GetRawRecordsFromCache", "dnscache.c:DNSCacheTTLCountdown_Task"]}
{"id": "C16", "title": "The periodic sweep removes exactly the expired records", "statement": "A sweep removes every record whose age reached its lifetime, and no other; all other records stay retrievable with unchanged data.", "quantifier": "every cache content and sweep time", "why_tests_cant": "all contents and times", "anchors": ["dnscache.c:DNSCacheTTLCountdown_Task"]}
{"id": "C17", "title": "Configured TTL rules determine the stored lifetime", "statement": "The lifetime stored for a record is given by the documented CacheControl rule selection (contagiousness of the queried domain's rule, then the record's own rule) applied to the record's TTL; 'nocache' stores nothing.", "quantifier": "every rule set, queried domain, record name and TTL", "why_tests_cant": "cross product of rules, contagion modes and TTL values", "anchors": ["cachettlcrtl.c:CacheTtlCrtl_Get", "dnscache.c:DNSCache_AddAItemToCache"]}
{"id": "C18", "title": "Following cached aliases always terminates", "statement": "Answering a query from cache terminates even if the cached aliases form a loop, and never writes outside the answer buffer.", "quantifier": "every cache content including cyclic alias graphs, every buffer size", "why_tests_cant": "cyclic alias graphs of any length", "anchors": ["dnscache.c:DNSCache_GetByQuestion", "dnscache.c:DNSCache_GetCNameFromCache"]}
{"id": "C19", "title": "A new record is never mistaken for an already cached one", "statement": "Inserting a record that differs from every cached record stores it.", "quantifier": "every pair of records", "why_tests_cant": "collision pairs must be searched for", "anchors": ["dnscache.c:DNSCache_AddAItemToCache", "dnscache.c:DNSCache_FindFromCache"]}
{"id": "C20", "title": "The ordered set behaves like a multiset", "statement": "After any sequence of additions and deletions the ordered set contains exactly the elements added and not deleted; searching finds an equal element iff there is one, repeated searching enumerates all equal elements, and enumeration visits each element once. Pointers to stored elements stay valid until that element is deleted.", "quantifier": "every sequence of add/delete/search for every total order", "why_tests_cant": "tree shapes are unbounded", "anchors": ["bst.c:Bst_Add", "bst.c:Bst_Search", "bst.c:Bst_Delete", "bst.c:Bst_Enum"]}
{"id": "C21", "title": "A reply is handed to at most one waiting client, and to the one that asked", "statement": "A reply is delivered to a client only if that client has a pending query with the same message id and name, restoring the client's address and query id; the query is then no longer pending so that a second identical reply is not delivered again.", "quantifier": "every interleaving of queries, replies and sweeps", "why_tests_cant": "depends on arbitrary interleavings of queries and replies", "anchors": ["mcontext.c:ModuleContext_Add", "mcontext.c:ModuleContext_GenAnswerHeaderAndRemove", "mcontext.c:ModuleContextCompare"]}
{"id": "C22", "title": "A reply to a pending query is always recognised", "statement": "If a query is pending (not answered, not swept), a reply with its id and name is matched to it.", "quantifier": "every set of pending queries and every history of removals", "why_tests_cant": "the failure needs three specific hashes and a removal", "anchors": ["mcontext.c:ModuleContextCompare", "mcontext.c:ModuleContext_FindAndRemove", "bst.c:Bst_Delete"]}
{"id": "C23", "title": "Sweeping drops exactly the queries older than the limit", "statement": "A sweep removes exactly the pending queries older than two seconds, calls the timeout callback once for each, and leaves all others pending.", "quantifier": "every set of pending queries and every time", "why_tests_cant": "all sets and ages", "anchors": ["mcontext.c:ModuleContext_Sweep", "mcontext.c:ModuleContext_Sweep_Collect"]}
{"id": "C24", "title": "The hash table finds what was put in", "statement": "After any sequence of additions, looking up a key enumerates exactly the entries added whose match predicate accepts the key with that hash, and growth of the table changes no lookup result.", "quantifier": "every sequence of additions, every hash value, every table size", "why_tests_cant": "rehash happens at particular sizes, all must work", "anchors": ["simpleht.c:SimpleHT_Add", "simpleht.c:SimpleHT_Expand", "simpleht.c:SimpleHT_Find"]}
{"id": "C25", "title": "Domain rules pick the closest enclosing domain, the most recent rule first", "statement": "Looking up a name among plain domain rules returns the rule of the longest enclosing domain (the name itself first, then its parents), and nothing if no rule encloses it; among several rules for the same domain the one reported is fixed by insertion order.", "quantifier": "every rule set and every name", "why_tests_cant": "rule sets and names are unbounded", "anchors": ["stringchunk.c:StringChunk_Domain_Match_NoWildCard", "stringchunk.c:StringChunk_Match_NoWildCard", "stringchunk.c:StringChunk_Add_Domain"]}
{"id": "C26", "title": "Exact rules take precedence over wildcard rules", "statement": "A lookup consults plain rules first and wildcard rules only if none matches; the wildcard rule reported is the first one added whose pattern matches.", "quantifier": "every rule set and name, every pattern semantics", "why_tests_cant": "all rule orders", "anchors": ["stringchunk.c:StringChunk_Match", "stringchunk.c:StringChunk_Match_OnlyWildCard", "stringchunk.c:StringChunk_Domain_Match"]}
{"id": "C27", "title": "Hosts entries answer by record type as documented", "statement": "A hosts lookup returns an address of the requested family if one is listed for the name, an IPv4-mapped IPv6 address when only an IPv4 is listed and IPv6 is asked, an exclusion entry hides all entries of the name, aliases are used only when no address entry applies.", "quantifier": "every sequence of hosts lines, every query", "why_tests_cant": "all orders of hosts lines", "anchors": ["hostscontainer.c:HostsContainer_Find", "hostscontainer.c:HostsContainer_AddNode", "hostsutils.c:HostsUtils_Try"]}
{"id": "C28", "title": "Static hosts win over downloaded hosts", "statement": "If the configured hosts items give a result for a query, it is used; only otherwise are the downloaded hosts consulted; the IPv6-blocking option refuses an IPv6 query exactly when an IPv4 item exists.", "quantifier": "every pair of hosts tables and every query", "why_tests_cant": "all pairs of tables", "anchors": ["hosts.c:Hosts_Try", "hosts.c:Hosts_Try_Inner"]}
{"id": "C29", "title": "Blocking and substituting single addresses is exact", "statement": "For rules on single addresses, an address in a reply is blocked or replaced iff a rule for exactly that address exists.", "quantifier": "every rule set of single addresses, every address", "why_tests_cant": "all rule sets", "anchors": ["ipchunk.c:IpChunk_Add", "ipchunk.c:IpChunk_Find", "ipmisc.c:IPMisc_AddBlockFromString"]}
{"id": "C30", "title": "Address ranges cover exactly their members", "statement": "An address is covered by a CIDR range iff their first prefix bits agree.", "quantifier": "every prefix length and every pair of addresses, IPv4 and IPv6", "why_tests_cant": "2^256 pairs", "anchors": ["ipchunk.c:Contain", "ipchunk.c:IpSet_Parse"]}
{"id": "C31", "title": "Every configured range rule takes effect", "statement": "If an address is covered by a configured range, looking it up finds a range that covers it, whatever other ranges are configured.", "quantifier": "every rule set and insertion order, every address", "why_tests_cant": "needs particular overlapping ranges in a particular order", "anchors": ["ipchunk.c:IpChunk_Add", "ipchunk.c:IpChunk_Find"]}
{"id": "C32", "title": "Reply filtering touches only what the rules name", "statement": "Processing a reply rewrites exactly the A/AAAA addresses having a substitution rule to the configured address of the same family, changes no other byte, and reports 'blocked' iff an address is blocked (or a negative result when configured).", "quantifier": "every reply and rule set", "why_tests_cant": "all replies", "anchors": ["ipmisc.c:IPMisc_Process", "ipmisc.c:IPMiscMapping_Process"]}
{"id": "C33", "title": "UDP and TCP upstreams stay isolated unless enabled", "statement": "Unless enabled in the configuration, a query that arrived over UDP is never handed to a TCP server group by a rule and vice versa; a rule that does not fit is not used.", "quantifier": "every configuration and query", "why_tests_cant": "all combinations of groups, rules and options", "anchors": ["mmgr.c:ModuleFitRequest", "mmgr.c:MMgr_Send"]}
{"id": "C34", "title": "Timed tasks run in order, not early, and none is lost", "statement": "With POSIX timers, a task never runs before its delay has elapsed on the scheduler's clock, tasks become due in order of their remaining time, and a periodic task is rescheduled after each run.", "quantifier": "every sequence of task additions at arbitrary moments", "why_tests_cant": "arbitrary interleavings of additions and timeouts", "anchors": ["timedtask.c:TimeTask_Work", "timedtask.c:Tv_Subtract", "linkedqueue.c:LinkedQueue_Add"]}
{"id": "C35", "title": "The priority queue is ordered and loses nothing", "statement": "After any sequence of additions and removals the queue holds exactly the added and not yet removed items, in non-decreasing order, and removal yields a minimum.", "quantifier": "every sequence of operations and every total preorder", "why_tests_cant": "unbounded histories", "anchors": ["linkedqueue.c:LinkedQueue_Add", "linkedqueue.c:LinkedQueue_Get"]}
{"id": "C36", "title": "Stored strings keep their address and content", "statement": "Every item stored in the append-only buffer keeps its address and bytes under all later additions, and items never overlap.", "quantifier": "every sequence of additions of any sizes", "why_tests_cant": "block growth happens at particular sizes", "anchors": ["stablebuffer.c:StableBuffer_Add"]}
{"id": "C37", "title": "Splitting a list option yields the delimiter-separated items", "statement": "Splitting a string by delimiters yields exactly its maximal non-delimiter pieces in order.", "quantifier": "every string and delimiter set", "why_tests_cant": "all strings", "anchors": ["stringlist.c:Divide", "stringlist.c:StringList_Add"]}
{"id": "C38", "title": "Comments and surrounding blanks never reach a value", "statement": "A line read from a configuration or hosts file contains no comment text, no line terminator and no leading or trailing blanks, blank and comment-only lines are skipped, and nothing else is lost.", "quantifier": "every file content, every buffer size", "why_tests_cant": "interaction of long lines with the buffer size", "anchors": ["readline.c:ReadLine", "readline.c:ReadLine_GoToNextLine"]}
{"id": "C39", "title": "Repeated options accumulate according to their strategy", "statement": "After reading any file, a replace-option holds its last value, an append-option the default followed by all values, an append-discarding-default option all given values or the default if none was given.", "quantifier": "every sequence of option lines", "why_tests_cant": "all orders of lines", "anchors": ["readconfig.c:ConfigRead", "readconfig.c:ParseString", "readconfig.c:ParseInt32", "readconfig.c:ParseBoolean"]}
{"id": "C40", "title": "IPv4 addresses survive conversion to text and back", "statement": "Converting an IPv4 address to text and back yields the same address and reports four components.", "quantifier": "all 2^32 addresses", "why_tests_cant": "2^32 inputs", "anchors": ["utils.c:IPv4AddressToAsc", "utils.c:IPv4AddressToNum"]}
{"id": "C41", "title": "IPv6 addresses survive conversion to text and back", "statement": "Converting an IPv6 address to text and back yields the same address, and the text needs at most 39 characters plus a terminator.", "quantifier": "all 2^128 addresses", "why_tests_cant": "2^128 inputs", "anchors": ["utils.c:IPv6AddressToAsc", "utils.c:IPv6AddressToNum"]}
{"id": "C42", "title": "Upstream servers are used in rotation", "statement": "Advancing k times through a list of n servers selects server k mod n, so after any n consecutive advances every server was selected; no index is ever out of range.", "quantifier": "every n>=1 and every number of advances, including counter wrap-around", "why_tests_cant": "wrap-around after 2^32 advances cannot be tested", "anchors": ["addresslist.c:AddressList_Advance", "addresslist.c:AddressList_GetOne"]}
{"id": "C43", "title": "Table sizes are prime", "statement": "The next-prime search returns the smallest prime not below its argument.", "quantifier": "every non-negative int", "why_tests_cant": "2^31 inputs", "anchors": ["utils.c:IsPrime", "utils.c:FindNextPrime"]}
{"id": "C44", "title": "Replacing substrings is exact and stays in the buffer", "statement": "The length-checked replacement replaces every left-to-right non-overlapping occurrence and writes within the buffer, or refuses.", "quantifier": "every text, pattern, replacement and buffer size", "why_tests_cant": "all strings", "anchors": ["utils.c:ReplaceStr_WithLengthChecking", "utils.c:ReplaceStr", "utils.c:CountSubStr"]}
{"id": "C45", "title": "Disabled types and domains are refused, everything else is not", "statement": "A query is refused by the filter iff its type is listed as disabled or its name is covered by a disabled domain rule.", "quantifier": "every rule set and query", "why_tests_cant": "all rule sets", "anchors": ["filter.c:Filter_Out", "filter.c:IsDisabledType", "filter.c:IsDisabledDomain"]}
{"id": "C46", "title": "A TCP reply is delivered whole however it is segmented", "statement": "The reply passed on to the client is the complete message announced by the TCP length prefix, regardless of how many segments it arrived in.", "quantifier": "every message and every segmentation", "why_tests_cant": "segmentations are not controllable in tests", "anchors": ["tcpm.c:TcpM_Works"]}
{"id": "C47", "title": "Queries never see a half-updated rule table", "statement": "While hosts or disabled lists are being reloaded, every query consults either the complete old table or the complete new one, and never freed memory.", "quantifier": "every interleaving of queries and reloads", "why_tests_cant": "data races depend on scheduling", "anchors": ["dynamichosts.c:DynamicHosts_Load", "dynamichosts.c:DynamicHosts_Try", "filter.c:DisabledDomain_Init", "filter.c:IsDisabledDomain"]}
{"id": "C48", "title": "Statistics add up", "statement": "For each domain the total equals the sum of refused, hosts, cache, UDP and TCP events recorded for it, and each event is counted once.", "quantifier": "every sequence of events while not being written out", "why_tests_cant": "unbounded histories", "anchors": ["domainstatistic.c:DomainStatistic_Add"]}
{"id": "C49", "title": "Growable arrays keep their elements", "statement": "After any sequence of appends the i-th element read is the i-th element appended, including growth, and downward growing arrays never cross their boundary.", "quantifier": "every sequence of appends, every growth point, every boundary", "why_tests_cant": "growth points are unbounded", "anchors": ["array.c:Array_PushBack", "array.c:Array_GetBySubscript"]}
{"id": "C50", "title": "Cached PTR and NS answers keep their type", "statement": "An answer served from cache has the record type under which it was cached.", "quantifier": "every record type and content", "why_tests_cant": "all types", "anchors": ["dnsgenerator.c:DnsGenerator_Generate", "dnscache.c:DNSCache_GetRawRecordsFromCache"]}
{"id": "C51", "title": "Rewriting an existing message keeps its content", "statement": "Starting a new message from an existing one yields exactly that message, ready to append to; when asked to strip, exactly its header, questions and answers, with zero authority and additional counts. It never writes outside the buffer.", "quantifier": "every well-formed message, buffer and following bytes", "why_tests_cant": "all messages, record counts and sizes", "anchors": ["dnsgenerator.c:DnsGenerator_Init", "dnsgenerator.c:StripedLength"]}
{"id": "C52", "title": "Adding EDNS changes nothing else", "statement": "Adding an EDNS record to a query without one yields the query with one OPT record appended and the additional count raised, and always finishes.", "quantifier": "every query", "why_tests_cant": "all queries, including ones that already carry additional records", "anchors": ["iheader.c:MsgContext_AddFakeEdns"]}
{"id": "C53", "title": "Hosts items apply whatever the letter case of their domain", "statement": "A hosts item applies to a question for its domain however the letters of the domain are capitalised in the question and in the hosts line.", "quantifier": "every domain, every capitalisation of it in the line and in the question", "why_tests_cant": "all capitalisations of all names", "anchors": ["hostscontainer.c:HostsContainer_Load", "iheader.c:IHeader_Fill", "utils.c:StrToLower"]}
{"id": "C54", "title": "Every standard IPv6 text is understood", "statement": "An IPv6 address written in any standard notation (full or shortened with '::', either letter case, leading zeros) is accepted and read as the address it denotes.", "quantifier": "all addresses and all their notations", "why_tests_cant": "2^128 addresses with many notations each", "anchors": ["utils.c:IPv6AddressToNum", "ipchunk.c:IpAddr_Parse"]}
{"id": "C55", "title": "Every query has exactly one fate, decided in a fixed order", "statement": "A query is refused if the filter disables it; otherwise answered from the hosts if they answer it; otherwise from the cache if that answers it; otherwise sent to exactly one server group; it is dropped only if there is no group at all.", "quantifier": "every filter configuration, every set of server groups, every query with a non-empty name, every random number", "why_tests_cant": "all combinations of filter, hosts, cache and groups", "anchors": ["mmgr.c:MMgr_Send", "filter.c:Filter_Out", "mmgr.c:ModuleFitRequest"]}
{"id": "C56", "title": "Messages sent over TCP are framed correctly", "statement": "A query sent to a TCP server, or an answer sent to a TCP client, appears on the connection exactly once, whole and behind its two-byte length, whenever it is reported as sent.", "quantifier": "every message and every sequence of partial or failing sends", "why_tests_cant": "partial sends depend on kernel buffers", "anchors": ["tcpm.c:TcpM_SendWrapper", "tcpm.c:TcpM_Send_Actual", "iheader.c:MsgContext_SendBack"]}
{"id": "C57", "title": "A TCP client's query is processed however it is segmented", "statement": "A query arriving over TCP is processed as the complete message announced by its length prefix, regardless of how many segments it arrives in; nothing else is processed.", "quantifier": "every message and every segmentation", "why_tests_cant": "segmentations are not controllable in tests", "anchors": ["tcpfrontend.c:TcpFrontend_Work"]}
{"id": "C58", "title": "The SOCKS proxy negotiation leaves the connection at the server's data", "statement": "When the negotiation with the SOCKS 5 proxy succeeds, exactly the greeting and the CONNECT request with the server's address and port have been sent, and the next byte read is the first one behind the proxy's answer.", "quantifier": "every server address, every granted answer of the proxy and every segmentation", "why_tests_cant": "needs a proxy controlling address forms and segmentation", "anchors": ["tcpm.c:TcpM_ProxyPreparation", "utils.c:ClearTCPSocketBuffer"]}
{"id": "C59", "title": "A received message is labelled with its own question", "statement": "A message whose questions are of class IN and have readable names of at most 255 characters is accepted and recorded with the name (small letters) and type asked for, the name's hash, whether it offers EDNS, its length, and the client it came from; a message of another class is refused.", "quantifier": "every message with questions, any memory behind it, and any earlier contents of the record", "why_tests_cant": "all messages, compression layouts and earlier traffic", "anchors": ["iheader.c:IHeader_Fill", "iheader.c:MsgContext_IsBlocked"]}
{"id": "C60", "title": "A datagram is attributed to the client that sent it", "statement": "Every query datagram that is processed is processed with the address of the client that sent it and with its own question, whatever was received before.", "quantifier": "every sequence of datagrams from any clients, and anything the rest of the program leaves in the receive buffer", "why_tests_cant": "interleavings of well-formed and odd datagrams of several clients", "anchors": ["udpfrontend.c:UdpFrontend_Work", "iheader.c:IHeader_Fill"]}
{"id": "C61", "title": "What is cached from a response is exactly its records", "statement": "Each record of class IN and a cached type of a response (A, AAAA, HTTPS, TXT, CNAME, PTR, NS, MX) is stored once, in order, under its own name, type, class and TTL and with its own data, and nothing else is; so every record that is answered from the cache was in a received response, under that name and type, and with a remaining TTL that ends when its lifetime ends.", "quantifier": "every history of responses and removals, all messages, compression layouts and memory contents", "why_tests_cant": "all messages and histories; bytes behind the packet are from earlier traffic", "anchors": ["dnscache.c:DNSCache_AddItemsToCache", "dnscache.c:DNSCache_AddAItemToCache", "dnsparser.c:DnsSimpleParserIterator_ToCacheData"]}
{"id": "C62", "title": "Listing an answer for the log stays within the log buffer", "statement": "When a message is shown in the log, nothing is written outside of the text buffer, and the text is terminated: one line for each value of the records that can be shown, then how many records were not shown, a number between 1 and the number the header counts.", "quantifier": "every packet of any bytes, every buffer size", "why_tests_cant": "all packets, with counts and lengths that disagree with the contents", "anchors": ["dnsparser.c:GetAllAnswers", "dnsparser.c:DnsSimpleParserIterator_TextifyData", "logs.c:ShowNormalMessage"]}
{"id": "C63", "title": "An answer from the cache is a proper reply to the question", "statement": "When a query is answered from the cache, what is sent to the client is a well-formed DNS message: the query's identification and recursion-desired bit, marked as a response without error, the query's question section, the chain of aliases from the asked name and then every live record of the last name with its remaining lifetime, and an OPT record exactly if the query carried one. If the cache has no answer, nothing is sent and the query is left as it was for the next stage. A query of another class, of a type that is not cached, or with answers in it is never answered from the cache.", "quantifier": "all histories of stored records and sweeps, all well-formed queries, all buffer sizes that hold the reply, all times, all numbers of aliases and records", "why_tests_cant": "The reply is assembled from cache nodes, a half-built message and a compression pass in the same buffer; the property is about all of them together for every cache content and every query, tests see a handful of combinations.", "anchors": ["dnscache.c: DNSCache_FetchFromCache", "dnscache.c: DNSCache_GetByQuestion", "dnsgenerator.c: DnsGenerator_Init", "dnsgenerator.c: DnsGenerator_Generate", "dnsgenerator.c: DNSCompress"]}
{"id": "C64", "title": "Every query passed to a UDP server group gets at most one reply, its own, or times out", "statement": "Whatever datagrams arrive at the module that talks to a group of UDP servers, and however its threads interleave: every query given to it either got one reply, sent to the client that asked and with the id of that client's query, or was timed out after two seconds, or is still pending; never two of these. A well-formed reply is delivered to one pending query with its id and name, unchanged but for the configured address replacements, and its records go to the cache; it is discarded without any other effect exactly if it has a blocked address, is negative although these are not wanted, or lacks EDNS although required; and if no such query is pending only the cache sees it. A query goes to all servers (parallel) or to the current one, and after timeouts to the next one; the result says whether a server could be sent to. The module keeps working as long as sockets can be made.", "quantifier": "all histories of queries, datagrams of any bytes, errors, idle turns and sweeps, in any order and of any length; all address rules; all well-formed replies that fit the receive buffer", "why_tests_cant": "The receive buffer, its header, the table of pending queries and the cache are all carried from one datagram to the next, so the property is about all histories; tests replay a few.", "anchors": ["udpm.c: UdpM_Works", "udpm.c: UdpM_Send", "udpm.c: SweepTask", "udpm.c: UdpM_Cleanup", "iheader.c: MsgContext_SendBack", "iheader.c: MsgContext_AddFakeEdns", "ipmisc.c: IPMiscMapping_Process", "dnscache.c: DNSCache_AddItemsToCache"]}
{"id": "C65", "title": "The hosts files answer with a proper reply", "statement": "When the hosts files have an answer for a query, its client gets exactly one message: a well-formed reply with the identification and the question section of the query, marked as a response without error, with one answer - the record that the files give for the name asked about, to be kept for a minute - and with an OPT record exactly if the query has one; the query goes no further. A query that is refused because of an IPv4 entry gets its own message back as an empty response. A query for a name with an alias is handed to the thread that follows aliases, with its header and identification. Every other query goes on to the next stage unchanged.", "quantifier": "all lines of both hosts files, all names, all well-formed queries, all buffers that hold the reply, both transports, all values of the option for IPv6 queries", "why_tests_cant": "The reply is built behind the query in the same buffer, with a placeholder name that a later compression pass replaces, and moved over the query; the property combines the content of the files with the bytes of every query, of which tests try a few.", "anchors": ["hostsutils.c: HostsUtils_Try", "hostsutils.c: HostsUtils_Generate", "hosts.c: Hosts_Try", "hosts.c: Hosts_Get", "dnsgenerator.c: DNSCompress", "iheader.c: MsgContext_SendBack"]}
{"id": "C66", "title": "Aliases of the hosts files are followed and the client gets the result", "statement": "When a query is for a name for which the hosts files have an alias, a query for the target with the client's type and a random identification is put through the forwarder, and the client's query is kept until it is answered or, at the earliest after two seconds, given up. When the reply comes, the client that asked, and no other, gets one well-formed message: its own identification and question, the alias of the asked name for a minute, the aliases and addresses of the reply with their owners, lifetimes and data, the flags of the reply, and an OPT record exactly if its query had one; its query is then forgotten and all others stay. If the alias has gone from the files, nothing is asked and nothing kept.", "quantifier": "all histories of queries, replies and idle times of any length, all contents of the hosts files at each moment, all well-formed replies with any number of records whose owners follow the chain, all buffer sizes that hold the message, both transports", "why_tests_cant": "A reply is matched by a pointer that travels through the upstream query and by a key of the pending query; whether it can reach the wrong client depends on the whole history of the table and on every reply, of which tests see a few.", "anchors": ["hosts.c: Hosts_SocketLoop", "hostsutils.c: HostsUtils_GenerateQuery", "hostsutils.c: HostsUtils_CombineRecursedResponse", "mcontext.c: ModuleContext_GenAnswerHeaderAndRemove", "mcontext.c: ModuleContext_Sweep"]}
{"id": "C67", "title": "Chains of aliases in the hosts files come to an end", "statement": "Whatever aliases the hosts files contain, a query for one of them leaves the hosts files after finitely many rounds: each round asks for the next name of the chain, for the client's type, until a name is reached that has no alias; that query goes on to the next stage. On the way back each round adds its alias in front, so that the client gets all the aliases in order and then the records.", "quantifier": "all contents of the hosts files, chains of any length, all names and types, all numbers of rounds, all times and random numbers", "why_tests_cant": "Each round is a message to another thread and a new query through the forwarder; that this ends for every content of the files, or never ends for some, is a statement about runs of any length.", "anchors": ["hosts.c: Hosts_SocketLoop", "hosts.c: Hosts_Try", "hosts.c: Hosts_Get", "mmgr.c: MMgr_Send", "hostsutils.c: HostsUtils_CombineRecursedResponse"]}
{"id": "C68", "title": "A set of sockets watches exactly the sockets in it", "statement": "The set of sockets that a thread waits on contains exactly the sockets that were added and not removed. Waiting returns a socket of the set that is ready, together with the data that was stored for it, and returns no socket only if none is ready, at the time-out or on an error; a signal is no error. Closing the set closes each of its sockets once, but the one excepted. The data given with a socket is stored and nothing beside it is written.", "quantifier": "all histories of additions and removals of any length, all sockets, all data, all sets of ready sockets, all sequences of results of select", "why_tests_cant": "The sockets are kept in a search tree beside the bit set of the kernel; that the two agree after every history, and for every number of sockets, is out of reach of samples.", "anchors": ["socketpuller.c: SocketPuller_Add", "socketpuller.c: SocketPuller_Del", "socketpuller.c: SocketPuller_Select", "socketpool.c: SocketPool_Add", "socketpool.c: SocketPool_FetchOnSet", "socketpool.c: SocketPool_CloseAll"]}
{"id": "C69", "title": "Clients of the TCP front end get the replies to their own queries, and connections are closed", "statement": "Each message that a client sends over TCP is handed on as one query, and its reply is sent on the connection the query came from. A connection whose client sends something else is closed once, one whose client has gone is closed too, and none of them is waited on afterwards. The listening sockets stay in use.", "quantifier": "all histories of turns and replies of any length, all numbers of clients, all descriptors the kernel may give out, all contents and pieces of the streams", "why_tests_cant": "Descriptors are given out again by the kernel; whether a late reply can meet the descriptor of another client depends on the interleaving of connections, bad data and replies of other threads.", "anchors": ["tcpfrontend.c: TcpFrontend_Work", "iheader.c: MsgContext_SendBack", "socketpuller.c: SocketPuller_Add", "socketpuller.c: SocketPuller_Del"]}
{"id": "C70", "title": "The TCP upstream module uses its connections in an orderly way and closes them", "statement": "Queries that go to servers over TCP are sent over connections that are opened when they are needed and used again. At no time are two queries outstanding on one connection, none is sent on a connection that is not one to a server (through a proxy: before the proxy was told which server), nothing is sent or received on a closed one, and none is lost: each open connection is kept in exactly one of the module's sets. If all goes well a query is sent once to one server, or, if configured so, once to each of them. When a connection fails that a reply was awaited on, at most that query is sent once more. The module runs as long as the program does; if it ends, each socket is closed once.", "quantifier": "all histories of queries, replies and failures of connections of any length, all numbers of servers and proxies, all behaviours of select, connect, send, recv, time and rand, all descriptors the kernel may give out", "why_tests_cant": "Which connections exist and which of them is chosen depends on the history of all queries before, on which sockets are ready at each of up to six polls, and on rand; tests see a few timings with one local server.", "anchors": ["tcpm.c: TcpM_Connect", "tcpm.c: TcpM_Connect_Recycle", "tcpm.c: TcpM_Connect_GetAvailable", "tcpm.c: TcpM_Send_Actual", "tcpm.c: TcpM_Works", "tcpm.c: TcpM_Cleanup", "socketpuller.c: SocketPuller_Select"]}
{"id": "C71", "title": "A query over TCP gets at most one reply, which goes to the client that asked", "statement": "Each query that the module takes in gets at most one reply; it gets one, times out, or is still pending. A reply that arrives on a connection goes to the client of a pending query with its id and name, with the configured addresses replaced and nothing else changed; one that is to be discarded has no effect; if no query is found, then because none with that id and name is pending. The cache takes in the reply as it was sent.", "quantifier": "all histories of queries, replies and failures of connections of any length, all contents of the streams, all acceptable messages, all filters", "why_tests_cant": "The matching of a reply depends on all queries that are pending, on their hash values, on retries and on time-outs in between; a test has one query in flight.", "anchors": ["tcpm.c: TcpM_Works", "tcpm.c: SweepWorks", "mcontext.c: MCtx_FindAndRemove", "iheader.c: MsgContext_SendBack", "ipmisc.c: IpMisc_Block"]}
{"id": "C72", "title": "A configured server address is used exactly as written", "statement": "A server given as \"a.b.c.d\", \"a.b.c.d:port\", \"[IPv6]\" or \"[IPv6]:port\" is contacted at exactly that address and port, the default port being used if none is given; a text that is not an address is refused; and a group of servers consists of the addresses in its list, in order, the texts that are none being left out.", "quantifier": "all texts, default ports, contents of the stack and of newly allocated memory", "why_tests_cant": "the texts are unboundedly many, and uninitialised stack contents decide some of the malformed cases, which a test run cannot vary", "anchors": ["addresslist.c: AddressList_ConvertFromString, AddressList_Add_From_String", "utils.c: GetAddressFamily", "common.h: FILL_ADDR4", "udpm.c: UdpM_Init", "tcpm.c: TcpM_Init"]}
{"id": "C73", "title": "The program listens on exactly the configured interfaces that the system grants", "statement": "At start each configured UDP and TCP interface for which the system grants a socket is opened and watched, in the order of the configuration; the other ones are skipped without effect on the rest; nothing else is left open; and the start fails if none could be opened.", "quantifier": "all lists of configured interfaces and all answers of the system to socket, bind and listen", "why_tests_cant": "failures of socket, bind and listen at arbitrary places of the list are not under the control of a test", "anchors": ["udpfrontend.c: UdpFrontend_Init", "tcpfrontend.c: TcpFrontend_Init"]}
{"id": "C74", "title": "Internal sockets are bound to the loopback interface only", "statement": "The sockets by which the parts of the program talk to each other are bound to 127.0.0.1 (or ::1), to the first free one of the 10000 ports from a given one on; if none of them is free no socket is used.", "quantifier": "all starting ports up to 55536, both families, and all answers of the system to the attempts", "why_tests_cant": "it takes up to 10000 attempts whose outcomes depend on the other programs on the machine", "anchors": ["utils.c: TryBindLocal", "hosts.c: Hosts_SocketLoop, Hosts_Init", "tcpm.c: TcpM_Init"]}
{"id": "C75", "title": "A good-IP list always gives one of its configured addresses, the fastest found by the last check", "statement": "Every list declared by GoodIPList is checked periodically with its interval; at any time a host name that refers to the list gets an address added to it by GoodIPListAddIP (none only if none was added): the one that answered first in the last check of the list in which one answered. Lists do not influence each other, and checks leave no sockets open.", "quantifier": "all configurations, all sequences of checks and all outcomes of the connection attempts", "why_tests_cant": "which address answers first, and when, depends on the network; the number of checks is not bounded", "anchors": ["goodiplist.c: CheckAList, ThreadJod, InitListsAndTimes, AddToLists, AddTask, GoodIpList_Get"]}
{"id": "C76", "title": "The cache survives a restart through its file", "statement": "With a cache kept in a file (ReloadCache on, MemoryCache off) ending the program and starting it again is invisible: every start succeeds and finds the records that were stored, with the time passed taken off their lifetimes; later records, removals and answers are those of one uninterrupted run, however often the program is restarted. A file of another version of the program or made for another CacheSize is not used: the program does not start, or, with OverwriteCache, starts with an empty cache; a refused file is left as it was and a damaged one is not used. Without a file, without ReloadCache or with MemoryCache the cache starts empty; a CacheSize below 102400 and the failures of the system are reported.", "quantifier": "all histories of stored records, sweeps and restarts (any number, any order), all CacheSize from 102400 to 2^31-1, all contents of an existing file, all option settings, all addresses the mapping may have had", "why_tests_cant": "A test restarts once, with a nearly empty cache, and looks up one name; that every link, offset, counter and time written into the mapping is read back as the same number in any reachable state, and stays consistent over later operations, is a statement about all histories.", "anchors": ["dnscache.c: IsReloadable, ReloadCache, CreateNewCache, InitCacheInfo, DNSCache_Init", "cacheht.c: CacheHT_CalculateSlotCount, CacheHT_Init, CacheHT_ReInit", "array.c: Array_GetBySubscript", "common.h: OPEN_FILE, CREATE_FILE_MAPPING, MPA_FILE"]}
{"id": "C77", "title": "The addresses that are blocked and replaced are exactly those of the configuration", "statement": "Replies are filtered by the rules that the options BlockIP, IPSubstituting (addresses and substitutes alternating) and the files of IPSubstitutingFile (one address and its substitute per line, separated by blanks) ask for, in this order; files that are missing, single words, a last address without substitute and words that are no address are passed over without harming the other rules. Without any of the options replies are left alone. The rules in force before do not matter; they change while the program runs only if ReloadIPSubstituting is set, and stay when memory is short.", "quantifier": "all lists of strings in the options, all files (missing or with any number of lines), all rule texts, all replies, all rules in force before", "why_tests_cant": "The texts of rules and files are unbounded and their effects interact (order, overlapping ranges, skipped lines); a test tries one small file.", "anchors": ["ipmisc.c: IpMiscMapping_Load, LoadIPSubstitutingFromFile, IpMiscMapping_Update, IPMiscMapping_Process, IPMisc_AddBlockFromString, IPMisc_AddSubstituteFromString", "ipchunk.c: IpChunk_Add"]}
{"id": "C78", "title": "Log messages are kept whole and in order, and full log files are put away without loss", "statement": "With LogOn every message is appended to dnsforwarder.log in LogFileFolder, whole and in the order of the calls; a file that has reached LogFileThresholdLength is put away under the first free number before the next message, so that the old files and the log file together hold all messages, no file is longer than the limit and one message, and no other file is touched, also when the program is stopped and started again. Messages go to the screen when they are to. Without LogOn no file is touched. A start that cannot log is reported.", "quantifier": "all files present at the start, all folders and limits, all sequences of messages, all failures of renaming and creating files", "why_tests_cant": "The number of messages and files is unbounded; which number a file gets depends on all files there; renaming failures are rarely provoked in tests.", "anchors": ["logs.c: Log_Init, CheckLength, Log_Print, Log_Inited", "utils.c: FileIsReadable"]}
{"id": "C79", "title": "An update of the hosts replaces the hosts file only when something was obtained", "statement": "An update fetches the sources of the option Hosts in the configured order, local ones by copying and others by downloading. When at least one source was obtained the hosts file becomes the sources obtained, in order, each with a line feed behind it; otherwise it stays as it was. No other file is touched but the two temporary ones. Then, and only then, the script is run and hosts, refused names, address rules and server groups are loaded again. A source that cannot be obtained does not keep the others from being used, and a failing update leaves the hosts file.", "quantifier": "all lists of sources, all files, all outcomes of all attempts to download, any limit on the attempts", "why_tests_cant": "Which downloads fail, when, and in which combination is not under the control of a test; that nothing is ever loaded (an endless wait) cannot be observed.", "anchors": ["downloader.c: GetFromInternet_MultiFiles, GetFromInternet_SingleFile, GetFromInternet_Base", "utils.c: CopyAFile, GetLocalPathFromURL", "dynamichosts.c: GetHostsFromInternet_Thread"]}
{"id": "C80", "title": "The command line and the configuration file mean what the manual says, and serving starts only when everything is there", "statement": "Any sequence of -q, -D, -d and -f FILE in any order and number means what the help says (the last -f counts); other arguments are reported and do not matter. Every option has the value that the lines of the configuration file give it, and the default of the manual if no line does or there is no file; the default files are in .dnsforwarder in the home directory. Queries are served only after all parts have been loaded, by exactly the front ends that got their sockets; if a part is missing the program ends with its error. The program starts for every user and every home directory.", "quantifier": "all command lines, all home directories, all configuration files, all outcomes of starting the parts", "why_tests_cant": "Command lines, files and failing parts combine without bound; a test starts the program with one configuration of one user.", "anchors": ["main.c: ArgParse, GetDefaultConfigureFile, EnvironmentInit, main", "utils.c: GetConfigDirectory, GetPathPart", "readconfig.c: ConfigAddOption, ConfigAddAlias, ConfigSetStringDelimiters, ConfigSetDefaultValue, ConfigRead"]}
{"id": "C81", "title": "Names are answered from the hosts that were configured and fetched", "statement": "With `Hosts` given, a hosts file that is already there is in force from the start, and fetching begins at once and is repeated every `ModulesUpdateInterval` seconds if that is positive. After an update, every name and type is answered as the lines of the obtained sources say, taken in the configured order (together with `AppendHosts`, which comes first): no line is lost or joined with another where two sources meet, and nothing is left of earlier hosts. If no source is obtained, the file cannot be read, or memory is short, the earlier hosts stay in force. With a script, what it makes of the file is loaded. Without `Hosts`, or with a script path that cannot be expanded or a negative retry interval, there are no fetched hosts.", "quantifier": "all source contents, lists of sources and their outcomes, earlier tables, strings of AppendHosts, intervals, names, query types and pattern matchers", "why_tests_cant": "It composes downloading, file reading and table lookup over all source contents; tests try a few hosts files with one source.", "anchors": ["dynamichosts.c: DynamicHosts_Load, DynamicHosts_Init, GetHostsFromInternet_Thread", "statichosts.c: StaticHosts_Init", "downloader.c: GetFromInternet_MultiFiles", "hosts.c: Hosts_Try"]}
{"id": "C82", "title": "Replacing the server groups never touches freed memory, and the old ones end", "statement": "The server groups of a load are used from the moment they are published until a later load replaces them. From then on no query is sent to them; each is told to stop, makes at most one more turn, frees what it owns exactly once, and when all have ended their memory is given back; nothing ever uses memory that has been freed, whatever the order in which queries, workers, sweepers, and loads run. A load that fails, and a group that has to give up because of an error, do no harm. Queries that are pending when the groups are replaced still get their replies.", "quantifier": "all numbers of groups and query threads, all interleavings of loading, publishing, queries, workers, sweepers, replacement and cleaning, all errors", "why_tests_cant": "Use after free between threads shows up only in rare interleavings of a reload with running queries; tests do not reach them.", "anchors": ["mmgr.c: Modules_Load, Modules_SafeCleanup, Modules_Free, MMgr_Send, Udp_Init_Core, Tcp_Init_Core", "udpm.c: UdpM_Works, UdpM_Cleanup, UdpM_Sweep_Thread, UdpM_Send, UdpM_Init", "tcpm.c: TcpM_Works, TcpM_Cleanup, TcpM_Init"]}
{"id": "C83", "title": "Asking again within the lifetime is answered from the cache with the records of the response", "statement": "After a response to a question has arrived, the same question asked again before the lifetimes of the records end is answered from the cache: with the aliases and records of that response, all of them and none else, each with its own name, type, class and data, and with what remains of its lifetime as TTL - whatever other responses arrived before or arrive in between and whatever was removed as expired. A reply from the cache never has a record that no response had.", "quantifier": "all histories of well-formed responses and removals of expired records, before and after the response, all responses with records of the cached types, all cache sizes with room, all rules for lifetimes, all queries, all times", "why_tests_cant": "A test asks twice with an empty cache and one response; whether records of other names, expired leftovers, free chunks and removals in any order can hide or alter the records is a statement about all histories.", "anchors": ["dnscache.c: DNSCache_AddItemsToCache, DNSCache_AddAItemToCache, DNSCache_FetchFromCache, DNSCache_GetByQuestion, DNSCacheTTLCountdown_Task", "cacheht.c"]}
{"id": "C84", "title": "Timed tasks on Windows run in order, not early, and none is lost", "statement": "In the program for Windows a task added with a delay is never lost, is taken over by the scheduler however the additions and the scheduler's waits interleave (no wake-up is lost), the task started is always one with the least remaining time, a periodic task waits for its full time again after each run, and no task is started before its delay has elapsed.", "quantifier": "every sequence of additions, ends of tasks and passing of time, interleaved with the scheduler in every way", "why_tests_cant": "lost wake-ups and stale events depend on the interleaving of threads; histories are unbounded", "anchors": ["winmsgque.c:WinMsgQue_Post", "winmsgque.c:WinMsgQue_Wait", "timedtask.c:TimeTask_Work", "timedtask.c:TimeTask_ReduceTime", "timedtask.c:TimeTask_RunTack", "timedtask.c:TimedTask_Add"]}
{"id": "C85", "title": "From the query to the answer, all stages together", "statement": "A client sends a query with one question (class IN, a name that is not the root) as a UDP datagram or on a TCP connection. Then exactly one of the following happens, in this order of precedence: if the type is in DisabledType or the name is covered by a rule of DisabledDomain or DisabledList, the client gets its own message back marked as a response without error; else if the hosts files block it (BlockIpv6WhenIpv4Exists) the same; else if they have a record for the name the client gets a well-formed reply to its question with that record; else if they have an alias the query is handed to the part that follows aliases; else if the cache holds unexpired records for the question the client gets a well-formed reply with the aliases and the records and their remaining lifetimes; else the unchanged query goes to the server group that the rules give for the name, or nowhere if there is no group. A reply goes to the address and socket that the query came from, carries the query's identification, and has an OPT record if the query has one. At most one message is sent.", "quantifier": "all configurations (types, rules, hosts files, groups), all histories of the cache, all queries with one question, all contents of the receive buffer left by earlier messages, all times and random numbers", "why_tests_cant": "The stages are tested one by one; that the data which one stage leaves (lower-cased name, hash, type, lengths, buffer content) is what the next one needs, for every configuration and every message, is a property of their composition.", "anchors": ["mmgr.c: MMgr_Send", "udpfrontend.c: UdpFrontend_Work", "filter.c: Filter_Out", "hosts.c: Hosts_Get", "dnscache.c: DNSCache_FetchFromCache", "iheader.c: IHeader_Fill"]}
{"id": "C86", "title": "A query that is passed on gets the reply that arrives in time", "statement": "A query that can be answered neither from the configuration nor from the cache goes on to a group of UDP servers. The servers that are to be asked get the message of the client, unchanged (with the option against pollution: with an OPT record in addition). When a well-formed response with the identification and the question of the query arrives within two seconds and is not one to be discarded, the client gets it: at the address and the socket that the query came from, as it arrived but for the configured replacement of addresses - unless the client has been sent a reply to this query before. This holds whatever other clients ask before and meanwhile, whatever datagrams arrive and whenever old queries are removed.", "quantifier": "all histories of the UDP module before and after the query (other queries, any datagrams, removals of old queries, errors of select), all queries with one question, all well-formed responses, all address filters", "why_tests_cant": "The threads of the front end, of the module and of its timer share the table of pending queries; a test has one interleaving and one set of pending queries, the claim is about all.", "anchors": ["mmgr.c: MMgr_Send", "udpm.c: UdpM_Send, UdpM_Works, SweepWorks", "mcontext.c: ModuleContext_Add, ModuleContext_GenAnswerHeaderAndRemove, ModuleContext_Swep", "iheader.c: MsgContext_SendBack"]}
{"id": "C87", "title": "A text that is no address is not taken for one", "statement": "Where an address is expected in a hosts line or in an address rule, a text is accepted only if it is an address as standards write it; any other text is rejected, so that a misspelt rule cannot act on some other address.", "quantifier": "every text", "why_tests_cant": "all texts, of which the accepted ones are an infinite set", "anchors": ["ipchunk.c:IpAddr_Parse", "utils.c:IPv4AddressToNum", "utils.c:IPv6AddressToNum"]}
{"id": "C88", "title": "A query that is passed on to a TCP server gets the reply that arrives in time", "statement": "A query that can be answered neither from the configuration nor from the cache goes on to a group of TCP servers. One of the servers (each of them in parallel mode) gets the message of the client, unchanged, behind its length. When a well-formed response with the identification and the question of the query arrives within two seconds, on any connection on which a response is awaited, and is not one to be discarded, the client gets it: at the address and the socket that the query came from, as it arrived but for the configured replacement of addresses - unless the client has been sent a reply to this query before. This holds whatever other clients ask before and meanwhile, whichever connections are opened, reused, fail or end, and whatever else arrives; and with the option against pollution too.", "quantifier": "all histories of the TCP module before and after the query (other queries, any bytes on any connection in any pieces, failing connections, resent queries, removals of old queries), all clocks, all choices of servers, all queries with one question, all well-formed responses, all address filters", "why_tests_cant": "Connections are shared between the queries and each turn of the loop may sweep, resend, open and close; a test has one server that behaves, the claim is about all.", "anchors": ["mmgr.c: MMgr_Send", "tcpm.c: TcpM_Send, TcpM_Works, TcpM_Send_Actual, TcpM_SendWrapper", "mcontext.c: ModuleContext_Add, ModuleContext_GenAnswerHeaderAndRemove, ModuleContext_Swep", "iheader.c: MsgContext_SendBack, MsgContext_IsBlocked"]}
{"id": "C89", "title": "Each server of a UDP group can be reached, whatever its address family", "statement": "A query that is handed to a group of UDP servers is sent, for every server it is meant for, from a socket of the address family of that server; without parallel asking the servers of the group take their turns, IPv4 and IPv6 ones alike; with parallel asking every server of the group is asked.", "quantifier": "all texts of server lists, with and without parallel asking; all histories of queries, replies, idle turns, socket errors and sweeps", "why_tests_cant": "which server is current when the socket is made depends on the history of time-outs; a test with servers of one family, or in which the first server replies, never shows a socket of the wrong family", "anchors": ["udpm.c:UdpM_Init", "udpm.c:UdpM_Works", "udpm.c:UdpM_Send", "udpm.c:UdpM_Sweep_Thread", "addresslist.c:AddressList_GetPtrListOfFamily", "addresslist.c:AddressList_GetOne"]}
{"id": "C90", "title": "Each configured server group is set up as written", "statement": "For every ServerGroup / GroupFile setting the program has, in the order of the configuration, a group with exactly the servers, the way of asking (all at once or in turn) and the proxies that are written, and sends the domains of the group to it; if some group cannot be set up the load fails and the groups in use before stay.", "quantifier": "every configuration of server groups, directly or in group files, every file system, any contents of memory that is not initialised", "why_tests_cant": "all texts of the configuration with their combinations of settings; what a bad proxy or a path with capital letters does shows only in configurations a test does not have", "anchors": ["mmgr.c:Modules_Init", "mmgr.c:Modules_InitFromFile", "mmgr.c:Udp_Init_Core", "mmgr.c:Tcp_Init_Core", "tcpm.c:TcpM_Init", "udpm.c:UdpM_Init"]}
{"id": "C91", "title": "A server group gives back its memory exactly once", "statement": "What a server group takes from the heap is given back once and only once: at once if the group cannot be set up, and else when it ends (at a reload); so a program that reloads its configuration again and again neither crashes nor grows.", "quantifier": "every number of servers and proxies, every step of the setting-up that can fail", "why_tests_cant": "a block freed twice or lost shows only with a memory checker and only on the path where some allocation, bind or list fails; there are thirteen such paths", "anchors": ["tcpm.c:TcpM_Init", "tcpm.c:TcpM_Cleanup", "udpm.c:UdpM_Init", "udpm.c:UdpM_Cleanup", "socketpuller.c:SocketPullers_Free"]}
{"id": "C92", "title": "The log shows what a response has", "statement": "When the text of a well-formed response's records is made for the log and fits in its buffer, it has one line for each value of each record, in the order of the records of all sections: an A record's address as four decimal numbers, an AAAA record's address in its usual form, the name that a CNAME, PTR or NS record holds, the strings of a TXT record joined, the preference and the exchanger of an MX record, the two names and the five numbers of a SOA record, and for other types the name of the type (or its number) and the length of the data. Where a record of another class than IN comes, the list ends with the number of records that are left. Without records the text says 'Nothing.'.", "quantifier": "all well-formed responses with at least one question, with any number of records of any types, names compressed in any way, any bytes behind the message, and all buffer sizes in which the text fits", "why_tests_cant": "the text depends on record type, class, compression, lengths and the space left at once; a test compares a handful of literal responses", "anchors": ["dnsparser.c: GetAllAnswers, DnsSimpleParserIterator_TextifyData", "dnsrelated.c: DNSGetTypeName, DNSTypeList", "dnsparser.c: DnsSimpleParserIterator_ParseSOA, DnsSimpleParserIterator_ParseMailEx, DnsSimpleParserIterator_ParseTxt, DnsSimpleParserIterator_ParseRaw"]}
