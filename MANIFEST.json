{
 "claims": [
  {
   "property": "C01",
   "status": "proved",
   "theorems": [
    "C01_name_round_trip",
    "C01_written_form"
   ],
   "note": "Round trip and exact wire form; the reader consumes exactly the written bytes."
  },
  {
   "property": "C02",
   "status": "proved",
   "theorems": [
    "C02_name_read_is_rfc1035_decoding",
    "C02_name_read_sound",
    "C02_decoding_unique",
    "C02_jump_over_name"
   ],
   "note": "Completeness, soundness (labels up to 191 bytes are accepted) and uniqueness of the decoding; jumping over a name."
  },
  {
   "property": "C03",
   "status": "proved",
   "theorems": [
    "C03_name_read_stays_in_buffer"
   ],
   "note": "For every packet, declared length, offset, buffer and number of iterations."
  },
  {
   "property": "C04",
   "status": "partial",
   "theorems": [
    "C04_name_read_terminates_refuted",
    "C04_name_read_terminates_partial",
    "C04_jump_terminates",
    "C04_read_endless",
    "C04_read_bound",
    "C04_copy_endless"
   ],
   "note": "False of the code: a self-pointing name loops for ever (_refuted). Proved: terminates when no pointer leads to a pointer that is not before it, with an explicit bound. C04_read_endless: exactly when reading does not end: when it comes, over labels for which there is room, to a pointer that leads to itself by pointers only; C04_read_bound: it ends within a known number of turns or never. C04_copy_endless: the same for copying a name, which also goes round over labels."
  },
  {
   "property": "C05",
   "status": "partial",
   "theorems": [
    "C05_name_read_inside_packet_refuted",
    "C05_name_read_three_bytes_partial"
   ],
   "note": "False of the code (_refuted, even with two bytes of slack). Proved: never more than three bytes past the packet are read."
  },
  {
   "property": "C06",
   "status": "partial",
   "theorems": [
    "C06_walk_bounded_partial",
    "C06_sections_refuted"
   ],
   "note": "False of the code when QDCOUNT is 0 (_refuted: the first record is taken for a question). Proved for every packet with a question."
  },
  {
   "property": "C07",
   "status": "partial",
   "theorems": [
    "C07_walk_exact_partial",
    "C07_has_type_partial",
    "C07_walk_without_question_refuted"
   ],
   "note": "For every well-formed message with at least one question; without one the walk is wrong (_refuted). C07_has_type_partial: the search for records of a type (HasType) finds one exactly when there is one."
  },
  {
   "property": "C08",
   "status": "partial",
   "theorems": [
    "C08_building_stays_in_buffer_partial",
    "C08_raw_data_partial",
    "C08_building_stays_in_buffer_refuted",
    "C08_call_effect"
   ],
   "note": "False of the code for RawData, whose copy is not checked (_refuted, and the exact condition in C08_raw_data_partial). Proved for every other call and history; C08_call_effect covers every call."
  },
  {
   "property": "C09",
   "status": "proved",
   "theorems": [
    "C09_header_counts"
   ],
   "note": "All histories of calls, failing ones included; counts are modulo 65536 as in the header."
  },
  {
   "property": "C10",
   "status": "partial",
   "theorems": [
    "C10_built_message_partial",
    "C10_built_message_refuted"
   ],
   "note": "Proved for histories in which no call ran out of space; after such a call a later success gives a corrupt message (_refuted)."
  },
  {
   "property": "C11",
   "status": "proved",
   "theorems": [
    "C11_compression_keeps_meaning"
   ],
   "note": "For the messages DNSCompress is called on: the answers form an alias chain of uncompressed owner names, all within 16384 bytes."
  },
  {
   "property": "C12",
   "status": "proved",
   "theorems": [
    "C12_memory",
    "C12_no_stray_access"
   ],
   "note": "Any cache size and number of slots, any history. A memcmp while adding may read past the end of the area only when the cache has fewer than 128 slots; C12_no_stray_access gives the condition under which nothing outside is touched."
  },
  {
   "property": "C13",
   "status": "proved",
   "theorems": [
    "C13_index"
   ],
   "note": "Every live record is reachable from the slot of its key and nothing else is; entries counted exactly."
  },
  {
   "property": "C14",
   "status": "proved",
   "theorems": [
    "C14_lookup",
    "C14_only_what_was_stored"
   ],
   "note": "Refinement: the answer is exactly the list of live records of that name, type and class, newest first; each was stored by some addition of the history."
  },
  {
   "property": "C15",
   "status": "proved",
   "theorems": [
    "C15_never_expired"
   ],
   "note": "Every served record is within its lifetime and the TTL served is what remains of it (IgnoreTTL off)."
  },
  {
   "property": "C16",
   "status": "proved",
   "theorems": [
    "C16_sweep"
   ],
   "note": "The sweep removes exactly the expired records. It is modelled as one step: the first test of the real task runs before it takes the lock."
  },
  {
   "property": "C17",
   "status": "partial",
   "theorems": [
    "C17_rule_determined",
    "C17_configured",
    "C17_lifetime_partial",
    "C17_documented_partial",
    "C17_own_rule_refuted",
    "C17_wrap_refuted",
    "C17_message",
    "C17_nocache"
   ],
   "note": "Rule selection and lifetimes as written in the configuration text, for every rule list, name and TTL. Missing from the documented behaviour: a record's own plain rule never applies because the lookup key is 'name type class' (C17_own_rule_refuted), and coefficient/offset arithmetic wraps at 2^32 (C17_wrap_refuted); C17_documented_partial is the documented selection where neither happens."
  },
  {
   "property": "C18",
   "status": "partial",
   "theorems": [
    "C18_answer",
    "C18_terminates",
    "C18_within_buffer_partial",
    "C18_overflow_refuted"
   ],
   "note": "Termination for every cache history (alias loops included) and buffer; the answer is characterised exactly. Writing stays inside the buffer except for the raw types (A, AAAA, HTTPS, TXT), whose data is copied without a check (C18_overflow_refuted); C18_terminates names the overflowing record."
  },
  {
   "property": "C19",
   "status": "partial",
   "theorems": [
    "C19_stored_partial",
    "C19_same_length",
    "C19_prefix_refuted"
   ],
   "note": "False of the code: a record whose data is a prefix of stored data is taken for it (C19_prefix_refuted). Proved: stored whenever its data is no prefix of that of a live record of the same key and there is room (C19_stored_partial); always for data of equal length."
  },
  {
   "property": "C20",
   "status": "partial",
   "theorems": [
    "C20_contents",
    "C20_enumeration",
    "C20_search",
    "C20_in_order",
    "C20_repeated_search_partial",
    "C20_repeated_search_refuted"
   ],
   "note": "Contents, enumeration, search and in-order traversal are proved for all histories of additions and deletions. Repeated searching from a found element finds all equal elements only as long as nothing was deleted: after a deletion it may miss some (C20_repeated_search_refuted)."
  },
  {
   "property": "C21",
   "status": "partial",
   "theorems": [
    "C21_replies_partial",
    "C21_conservation",
    "C21_replies_refuted"
   ],
   "note": "Every history of queries, replies and sweeps runs as the plain collection of pending queries; conservation proved. Partial since matching is by message id and 32 bit hash, not the name: two names with the same hash are mixed up (C21_replies_refuted)."
  },
  {
   "property": "C22",
   "status": "partial",
   "theorems": [
    "C22_recognised_partial",
    "C22_distinct_ids_partial",
    "C22_recognised_refuted"
   ],
   "note": "Proved when hashes pending under the same id stay within half the hash range (in particular when ids differ). False in general: the comparison wraps and is not transitive (C22_recognised_refuted, google.com, github.com, h.com)."
  },
  {
   "property": "C23",
   "status": "proved",
   "theorems": [
    "C23_sweep_exact"
   ],
   "note": "One sweep uses one clock value in the model; the code reads the clock per element."
  },
  {
   "property": "C24",
   "status": "proved",
   "theorems": [
    "C24_finds_all",
    "C24_enumeration",
    "C24_load"
   ],
   "note": "Proved for every sequence of additions: Find/Next enumerate exactly the accepted elements, newest first, through every expansion of the table; enumeration order; load bound."
  },
  {
   "property": "C25",
   "status": "partial",
   "theorems": [
    "C25_closest_partial",
    "C25_exact",
    "C25_enumeration",
    "C25_root_refuted"
   ],
   "note": "Proved for every rule list and every name but the root (empty) name. For the root name the code reads the bytes behind the terminator (stale previous name): C25_root_refuted."
  },
  {
   "property": "C26",
   "status": "proved",
   "theorems": [
    "C26_match",
    "C26_match_exactly",
    "C26_domain_match",
    "C26_domain_match_random",
    "C26_random_reaches_all"
   ],
   "note": "Proved for the four kinds of lookup, for any fnmatch and any rand; domain lookups for names other than the root. C26_random_reaches_all: each matching pattern is given for some value of rand."
  },
  {
   "property": "C27",
   "status": "partial",
   "theorems": [
    "C27_lookup_partial",
    "C27_domain",
    "C27_families",
    "C27_lifo_refuted",
    "C27_alias_priority_refuted",
    "C27_long_word_refuted"
   ],
   "note": "Full characterisation of lookups for every list of lines (words up to 128 characters) and every query; the documented priorities (addresses before aliases, last line wins, long lines rejected) are false of the code: C27_lifo_refuted, C27_alias_priority_refuted, C27_long_word_refuted. Missing: words longer than 128 characters, list name <>."
  },
  {
   "property": "C28",
   "status": "proved",
   "theorems": [
    "C28_two_tables",
    "C28_alias"
   ],
   "note": "Proved for every pair of tables, loaded or not, every name, type of query and option value."
  },
  {
   "property": "C29",
   "status": "proved",
   "theorems": [
    "C29_exact",
    "C29_one"
   ],
   "note": "Rules given as configuration texts; the first rule for exactly the address is found in every rule set; with single-address rules only, nothing else is. Zoned IPv6 rules never match."
  },
  {
   "property": "C30",
   "status": "proved",
   "theorems": [
    "C30_sound",
    "C30_exact"
   ],
   "note": "Soundness for every rule set; exact coverage of one rule for every prefix length, both families."
  },
  {
   "property": "C31",
   "status": "partial",
   "theorems": [
    "C31_effect_partial",
    "C31_effect_refuted"
   ],
   "note": "False in general (C31_effect_refuted: 10.1.0.0/16 then 10.0.0.0/8 misses 10.2.0.5). Proved when no range follows a narrower one inside of it."
  },
  {
   "property": "C32",
   "status": "partial",
   "theorems": [
    "C32_filter_partial",
    "C32_short",
    "C32_filter_refuted"
   ],
   "note": "Proved for well-formed replies with a question whose A/AAAA data have 4/16 bytes. Data of another length: refuted (bytes of the next record are replaced). A reply without questions is not covered (its sections are misread)."
  },
  {
   "property": "C33",
   "status": "partial",
   "theorems": [
    "C33_load",
    "C33_choice",
    "C33_isolated_partial",
    "C33_fallback_refuted"
   ],
   "note": "C33_choice characterises the choice completely. Isolation holds for choices made by a rule (C33_isolated_partial); when no fitting rule covers the name the group is taken by the query identifier whatever its protocol (C33_fallback_refuted). UdpM_Init/TcpM_Init success, the file system, fnmatch and rand are parameters."
  },
  {
   "property": "C34",
   "status": "proved",
   "theorems": [
    "C34_none_lost",
    "C34_order",
    "C34_progress",
    "C34_wake",
    "C34_expire",
    "C34_not_early",
    "C34_once"
   ],
   "note": "Executions of the scheduler with other threads adding tasks; select stores the remaining time (Linux). A task never starts early, runs of one task are a period apart, the least remaining time first, none is lost. Memory and pipe errors are not modelled."
  },
  {
   "property": "C35",
   "status": "proved",
   "theorems": [
    "C35_place",
    "C35_holds",
    "C35_minimum"
   ],
   "note": "Any comparison that is a total preorder, any sequence of operations."
  },
  {
   "property": "C36",
   "status": "proved",
   "theorems": [
    "C36_stable",
    "C36_addresses",
    "C36_aligned"
   ],
   "note": "Sequences of additions of any sizes; offsets are multiples of 8 if all additions are aligned."
  },
  {
   "property": "C37",
   "status": "partial",
   "theorems": [
    "C37_pieces",
    "C37_list",
    "C37_parts_partial",
    "C37_parts_refuted"
   ],
   "note": "List operations for all sequences of add/trim/lower/clear; reading a value in parts holds when no string is empty, refuted when the value starts with a delimiter (StringList_AppendLast loses the string)."
  },
  {
   "property": "C38",
   "status": "partial",
   "theorems": [
    "C38_lines_partial",
    "C38_shape",
    "C38_returns",
    "C38_long_partial",
    "C38_skip_partial",
    "C38_comment_refuted",
    "C38_long_refuted",
    "C38_lost_refuted",
    "C38_safety_refuted"
   ],
   "note": "The full statement is false of the code (C38_*_refuted: a '#' after ';', a line that exactly fills the buffer, a long comment at the end of the file, a blank unterminated last line); proved for files whose lines fit and whose comments are simple (C38_lines_partial), for long lines (C38_long_partial) and skipped rests (C38_skip_partial)."
  },
  {
   "property": "C39",
   "status": "partial",
   "theorems": [
    "C39_names",
    "C39_split",
    "C39_boolean",
    "C39_path",
    "C39_values_partial",
    "C39_long_refuted",
    "C39_long_values_partial",
    "C39_getters_partial",
    "C39_taken_partial"
   ],
   "note": "Full characterisation of every option's value after set-up and reading, for files whose lines fit the 2048-byte buffer and are C38-conformant (C39_values_partial), and with lines of any length for list options (C39_long_values_partial: the value is put together from its parts, if no string but the last is empty and the last part begins with a visible character); prepended texts for path options excluded. C39_long_refuted: the rest of an over-long line for another option, or for none, can be taken as option lines. wordexp is a parameter. C39_getters_partial: what ConfigGetRawString (the first string of the list), ConfigGetNumberOfStrings, ConfigGetStringList, ConfigGetInt32 and ConfigGetBoolean give for every name after such a file; asking for a value of another type than the option's reads the wrong member of a union and is outside the claim. C39_taken_partial: with long lines for other options or for none too: each 2047 bytes of them are taken as a line of their own. Long lines for path options are outside."
  },
  {
   "property": "C40",
   "status": "proved",
   "theorems": [
    "C40_round_trip",
    "C40_reads"
   ],
   "note": "All 2^32 addresses; also every dotted decimal text with leading zeros."
  },
  {
   "property": "C41",
   "status": "proved",
   "theorems": [
    "C41_round_trip",
    "C41_text",
    "C41_small"
   ],
   "note": "All 2^128 addresses, independent of uninitialised stack contents. C41_small: digits are printed in small letters."
  },
  {
   "property": "C42",
   "status": "partial",
   "theorems": [
    "C42_in_range",
    "C42_rotation_partial",
    "C42_every_server_partial",
    "C42_rotation_refuted"
   ],
   "note": "False of the code at the wrap of the 32-bit counter unless the number of servers divides 2^32 (_refuted). Proved before the wrap, and always if it divides; the index is in range always."
  },
  {
   "property": "C43",
   "status": "partial",
   "theorems": [
    "C43_test",
    "C43_next_partial",
    "C43_next_refuted"
   ],
   "note": "False of the code for 0 and 1, which give 3 (_refuted). Proved for 2..2^31-1, and the primality test for all numbers."
  },
  {
   "property": "C44",
   "status": "partial",
   "theorems": [
    "C44_replace_partial",
    "C44_unique",
    "C44_replace_refuted"
   ],
   "note": "Proved for non-empty patterns and when the memory is there; the empty pattern makes the real loop hang (refuted)."
  },
  {
   "property": "C45",
   "status": "partial",
   "theorems": [
    "C45_filter_partial",
    "C45_reply",
    "C45_root_refuted",
    "C45_case_refuted",
    "C45_sent"
   ],
   "note": "Proved for queries with a non-empty name, numbers below 30 bits and rule files with conformant lines (C38) below 512 bytes; refuted for the root query (stack contents decide) and for rules with capital letters (never apply). The reply carries response code 0, not 'refused' (C45_reply). fnmatch is a parameter."
  },
  {
   "property": "C46",
   "status": "partial",
   "theorems": [
    "C46_sound",
    "C46_whole_partial",
    "C46_whole_refuted",
    "C46_prefix_refuted"
   ],
   "note": "Partial: the bytes of a message are always put together correctly and nothing incomplete is passed on, but the length passed on is that of the last recv, so only messages in one segment are delivered whole (refuted otherwise); a split length prefix closes the connection (refuted)."
  },
  {
   "property": "C47",
   "status": "partial",
   "theorems": [
    "C47_tables",
    "C47_filter_partial",
    "C47_memory",
    "C47_filter_refuted"
   ],
   "note": "Interleaving semantics of one reloading thread and any number of query threads with a read-write lock (sequentially consistent; lock as a counter and a flag). Proved for hosts, address rules and server groups (C47_tables) and that nothing is freed while in use or twice (C47_memory). For the disabled domains the pointer is NULL between free and assignment and is tested outside the lock, so a query can be let through during a reload (C47_filter_refuted); otherwise it holds (C47_filter_partial)."
  },
  {
   "property": "C48",
   "status": "partial",
   "theorems": [
    "C48_page_partial",
    "C48_once",
    "C48_wildcard_refuted"
   ],
   "note": "Page contents proved for names without * ? [ (any number of events, any pauses for writing); for all names every event is counted exactly once and each total is the sum of its kinds. Refuted for names with wildcard characters: a query for * makes the page lose every domain not yet listed. Counters are unbounded in the model."
  },
  {
   "property": "C49",
   "status": "proved",
   "theorems": [
    "C49_up",
    "C49_walk",
    "C49_set",
    "C49_down"
   ],
   "note": "Both growing-up and growing-down arrays; every sequence of operations."
  },
  {
   "property": "C50",
   "status": "partial",
   "theorems": [
    "C50_generate_keeps_type_partial",
    "C50_generate_keeps_type_refuted"
   ],
   "note": "False for PTR and NS, which are served as CNAME (_refuted). Proved for raw types, CNAME and MX."
  },
  {
   "property": "C51",
   "status": "partial",
   "theorems": [
    "C51_init_from_message_partial",
    "C51_init_from_message_refuted"
   ],
   "note": "Content proved for every well-formed message that fits; that it fits is not checked by the code (_refuted)."
  },
  {
   "property": "C52",
   "status": "partial",
   "theorems": [
    "C52_fake_edns_partial",
    "C52_fake_edns_refuted"
   ],
   "note": "Proved for queries without additional records and 11 free bytes; with another additional record the code never finishes (_refuted)."
  },
  {
   "property": "C53",
   "status": "partial",
   "theorems": [
    "C53_capitals_never_apply",
    "C53_lower_case_partial",
    "C53_case_refuted"
   ],
   "note": "False: names in hosts lines are not brought to lower case while those of questions are (C53_case_refuted, C53_capitals_never_apply). Proved for domains written in lower case."
  },
  {
   "property": "C54",
   "status": "partial",
   "theorems": [
    "C54_reads_partial",
    "C54_zone",
    "C54_unspecified_refuted"
   ],
   "note": "Missing: '::' alone is reported as a failure (C54_unspecified_refuted), so rules on it are dropped."
  },
  {
   "property": "C55",
   "status": "proved",
   "theorems": [
    "C55_fate"
   ],
   "note": "Hosts_Get and DNSCache_FetchFromCache enter as booleans (answered or not)."
  },
  {
   "property": "C56",
   "status": "partial",
   "theorems": [
    "C56_send_partial",
    "C56_send_refuted",
    "C56_back",
    "C56_back_refuted"
   ],
   "note": "Proved when the system takes all bytes or none; refuted for partial sends: TcpM_SendWrapper starts again from the first byte, and an answer to a client is cut."
  },
  {
   "property": "C57",
   "status": "partial",
   "theorems": [
    "C57_sound",
    "C57_whole_partial",
    "C57_whole_refuted",
    "C57_parts_refuted"
   ],
   "note": "Soundness for all segmentations; completeness for a query in one segment; refuted otherwise (the front end calls recv once)."
  },
  {
   "property": "C58",
   "status": "partial",
   "theorems": [
    "C58_proxy_partial",
    "C58_name_refuted",
    "C58_split_refuted"
   ],
   "note": "Proved for answers in one segment and names of at most 125 bytes; refuted for longer names (char overflow) and for split answers (ClearTCPSocketBuffer does not wait)."
  },
  {
   "property": "C59",
   "status": "partial",
   "theorems": [
    "C59_labelled",
    "C59_asked_unique",
    "C59_blocked",
    "C59_other_class",
    "C59_any_packet",
    "C59_no_question_refuted",
    "C59_nul_refuted",
    "C59_two_questions_refuted"
   ],
   "note": "Proved for every message in the scope of the statement. Outside of it: a message without a question keeps the name of the one before, a NUL in a label ends the name, and with two questions the second's name goes with the first's type (the refuted theorems)."
  },
  {
   "property": "C60",
   "status": "partial",
   "theorems": [
    "C60_attributed_partial",
    "C60_other_client_refuted"
   ],
   "note": "Holds for datagrams that are accepted by C59's conditions; false in general: IHeader_Fill's result is ignored, so that a question of class CH from one client is processed with the name and address of the previous client (C60_other_client_refuted)."
  },
  {
   "property": "C61",
   "status": "partial",
   "theorems": [
    "C61_stored_partial",
    "C61_stored_unique",
    "C61_served_was_received_partial",
    "C61_any_packet",
    "C61_short_mx_refuted",
    "C61_beyond_packet_refuted"
   ],
   "note": "Proved for well-formed responses whose names can be read (C61_stored_partial, C61_served_was_received_partial: whole histories); for arbitrary bytes C61_any_packet shows that only records of the expected shape are added and nothing is written outside. The statement for all packets is false: an MX record with two bytes of data is stored and read past its end when answered (C61_short_mx_refuted), data behind the end of a packet is stored from earlier traffic (C61_beyond_packet_refuted)."
  },
  {
   "property": "C62",
   "status": "partial",
   "theorems": [
    "C62_in_buffer_partial",
    "C62_counts_refuted"
   ],
   "note": "Proved for packets whose header counts fewer than 100000 records in all (C62_in_buffer_partial); with more the last line can be one byte too long for the buffer (C62_counts_refuted, a packet of 632 bytes)."
  },
  {
   "property": "C63",
   "status": "partial",
   "theorems": [
    "C63_cached_answer_partial",
    "C63_not_cached",
    "C63_long_query_refuted",
    "C63_ns_refuted",
    "C63_does_not_fit_refuted",
    "C63_hosts_as_aliases",
    "C63_never_that_type"
   ],
   "note": "Proved for A, AAAA, HTTPS, TXT, MX and (single) CNAME questions whose reply fits behind the query in the buffer, composed with the cache history, the alias chain, the generator and the compression. What is sent for NS, PTR and (several) CNAME records is characterised for all histories and queries by C63_hosts_as_aliases: a chain of CNAME records, each host an alias of the one before; so the records stored are never what is sent (C63_never_that_type, witness C63_ns_refuted). Refuted: a record that does not fit is left unfinished in the reply (C63_does_not_fit_refuted); a query whose questions and answers are longer than the rest of the buffer is copied beyond its end (C63_long_query_refuted)."
  },
  {
   "property": "C64",
   "status": "partial",
   "theorems": [
    "C64_one_reply",
    "C64_reply_partial",
    "C64_query_partial",
    "C64_timeouts",
    "C64_stays_up",
    "C64_fresh_socket",
    "C64_stale_refuted",
    "C64_ends"
   ],
   "note": "C64_one_reply: all histories, any bytes: conservation of queries, each reply goes to the client of the matched query with its id. C64_reply_partial: exact effect of a well-formed reply in every reachable state (table, cache, client, flags); missing: address records with data of another length (C32), replies that are no messages. C64_query_partial: exact effect of a query that the EDNS step can handle (C52). C64_timeouts, C64_stays_up, C64_fresh_socket: the other steps. C64_stale_refuted: a datagram of three bytes makes the rest of another client's answer go out, since the result of IHeader_Fill is ignored. C64_ends: when a socket cannot be made the module ends for good: no client gets a reply from it any more."
  },
  {
   "property": "C65",
   "status": "partial",
   "theorems": [
    "C65_reply_partial",
    "C65_refused",
    "C65_alias",
    "C65_nothing",
    "C65_untouched",
    "C65_two_questions_refuted",
    "C65_long_query_refuted"
   ],
   "note": "C65_reply_partial: with two loaded tables whose lines say ts1 and ts2 about the name (specification of C27/C28), a well-formed query without answers whose reply fits gets is_reply with the record of the file. C65_refused, C65_alias, C65_nothing: the other three verdicts; C65_untouched: for every query and every state, one that goes on is as it was. False parts: C65_long_query_refuted (a query of more than half of the buffer is copied beyond its end), C65_two_questions_refuted (the name looked up is that of the last question, the owner in the reply is that of the first). Missing: queries with answers in them, alias targets that are not host names."
  },
  {
   "property": "C66",
   "status": "partial",
   "theorems": [
    "C66_turn",
    "C66_query",
    "C66_no_alias",
    "C66_reply_partial",
    "C66_types_refuted",
    "C66_late_refuted",
    "C66_order_refuted"
   ],
   "note": "C66_turn: for every turn in every reachable state, what is kept, forgotten and to whom something is sent. C66_query, C66_no_alias: what is asked. C66_reply_partial: the message for the client, when no other pending query shares identification and hash of the name, the hashes are tame (C22), the reply's records follow the chain of aliases and the message fits. The full statement is false: C66_types_refuted (two clients with one identification asking for one name with different types: a reply goes to the wrong one), C66_late_refuted (a reply after its query was given up goes to the client whose query took its place, with the wrong target), C66_order_refuted (records not in chain order get wrong owners)."
  },
  {
   "property": "C67",
   "status": "partial",
   "theorems": [
    "C67_chain_partial",
    "C67_level",
    "C67_endless_refuted",
    "C67_cycle_refuted"
   ],
   "note": "C67_chain_partial: chains of any length that end, in any reachable state of the thread; C67_level: the reply of one round is taken over entirely by the round before, so that C66_reply_partial applies again. The full statement is false: C67_endless_refuted (names that are aliases of one another: for every number of rounds, a new query each round, all kept, nothing sent), C67_cycle_refuted (the same for a file of two lines)."
  },
  {
   "property": "C68",
   "status": "partial",
   "theorems": [
    "C68_set_partial",
    "C68_select",
    "C68_no_socket",
    "C68_data_partial",
    "C68_data_refuted",
    "C68_many_refuted",
    "C68_twice_refuted",
    "C68_interrupted_refuted"
   ],
   "note": "Proved for descriptors below 1024 that are in the set at most once (_partial). Refuted: a descriptor from 1024 on is written beyond the set; data shorter than the set's data size is followed by a memset at a wrong offset, beyond the node; a socket added twice and removed once is closed at the end but not watched; an interrupted wait that then times out is reported as an error."
  },
  {
   "property": "C69",
   "status": "partial",
   "theorems": [
    "C69_turn",
    "C69_closed",
    "C69_own_partial",
    "C69_leak_refuted",
    "C69_other_refuted",
    "C69_reply",
    "C69_reply_closed"
   ],
   "note": "Turns and closing are proved in full for descriptors that the kernel gives out (not in use, below 1024). The reply goes to the query's connection as long as the front end has not closed that socket (_partial). Refuted: the socket of a client that has gone is never closed; after bad data closed a socket with a query pending, its reply goes to the next client that gets the descriptor. C69_reply, C69_reply_closed: a reply goes to nobody or to a connection that the front end has not closed; on a socket it closed and has no new connection on, to nobody."
  },
  {
   "property": "C70",
   "status": "partial",
   "theorems": [
    "C70_orderly",
    "C70_turn",
    "C70_sent",
    "C70_end_partial",
    "C70_end_refuted",
    "C70_interrupt_refuted",
    "C70_parallel_refuted",
    "C70_rand_refuted"
   ],
   "note": "C70_orderly, C70_turn: for every history the events on the sockets are lawful (send only on an idle connection to a server, receive only where a query is outstanding, close only what is open), every open socket is in exactly one set, and a turn sends nothing, the query that came, or one retry. C70_sent: when sockets are ready, sends complete and connecting succeeds, a query goes to one server, or once to each. Partial: the module ends when select is interrupted and then times out (C70_interrupt_refuted); at the end the socket for the callers is closed twice (C70_end_partial says what is closed, C70_end_refuted that it is not lawful); with sockets that are not ready in parallel mode a query may be sent twice to one server and not to the other (C70_parallel_refuted); the sum of rand and an index may overflow (C70_rand_refuted)."
  },
  {
   "property": "C71",
   "status": "partial",
   "theorems": [
    "C71_one_reply",
    "C71_reply_partial",
    "C71_empty_refuted"
   ],
   "note": "C71_one_reply: for every history the queries taken in are, as a multiset, those that got one reply, those that timed out and those pending. C71_reply_partial: for every acceptable reply that arrives in one piece, in every reachable state, what the client gets, what is pending and what the cache takes in. Partial: replies that arrive in more pieces (C46) and messages that are not acceptable are covered by C71_one_reply only; after a reply of length 0 the client gets its own query back (C71_empty_refuted)."
  },
  {
   "property": "C72",
   "status": "partial",
   "theorems": [
    "C72_reads_partial",
    "C72_rejects",
    "C72_servers_partial",
    "C72_octal_refuted",
    "C72_range_refuted",
    "C72_port_refuted",
    "C72_wrap_refuted",
    "C72_memory_refuted",
    "C72_none_refuted",
    "C72_long_refuted"
   ],
   "note": "Proved for well-formed texts (dotted decimal without leading zeros, bracketed IPv6 of at most 45 characters, ports below 65536) and, at the level of a server list, for lists whose other items are recognisably no addresses. Refuted: leading zeros are octal; numbers out of range and a fifth component give 255.255.255.255; a missing port number is read from the stack; ports wrap at 65536; a text of more than fifteen characters is cut and the rest is read as another address (C72_long_refuted); nine groups before '::' write behind the address; a group without addresses is accepted and the first query divides by zero. inet_addr, strtoul and sscanf of glibc are modelled from their documentation."
  },
  {
   "property": "C73",
   "status": "partial",
   "theorems": [
    "C73_opens_partial",
    "C73_listen_refuted"
   ],
   "note": "Proved if every item is well-formed or recognisably not an address and no call of listen fails. Refuted: a failing listen leaves the socket open and drops the interfaces behind it."
  },
  {
   "property": "C74",
   "status": "proved",
   "theorems": [
    "C74_loopback"
   ],
   "note": "The answers of the system are a parameter."
  },
  {
   "property": "C75",
   "status": "partial",
   "theorems": [
    "C75_tasks",
    "C75_always",
    "C75_fastest",
    "C75_stale_refuted",
    "C75_sockets_refuted",
    "C75_closed",
    "C75_long_name_refuted",
    "C75_wildcard_refuted"
   ],
   "note": "Proved for configurations whose names have no wildcards and are declared once. Refuted: an item without port or address takes it from the stack; a socket that cannot be made non-blocking stays open; a name with a wildcard is never found. The exchange of two addresses is atomic in the model; in the program it is three memcpy calls without a lock."
  },
  {
   "property": "C76",
   "status": "partial",
   "theorems": [
    "C76_restart",
    "C76_same_answers",
    "C76_area",
    "C76_refused",
    "C76_new",
    "C76_fails",
    "C76_untouched_refuted",
    "C76_damaged_refuted"
   ],
   "note": "Proved in full for the restart itself (C76_restart, C76_same_answers: any history with any number of restarts, through DNSCache_Init on the bytes of the file, gives the records and answers of the operations alone; the one exception is the read outside of the memory of C12, which needs a CacheSize below 711997), for files of another version or size (C76_refused), for a new cache (C76_new) and for the failures (C76_fails). Two parts of the statement are false of the code: a refused file is changed all the same, because CREATE_FILE_MAPPING writes a NUL at offset CacheSize before anything is checked (C76_untouched_refuted), and nothing but the version and the size is checked, so a damaged file makes the program read outside of its memory (C76_damaged_refuted). Restarts happen between operations; a crash in the middle of one is not modelled. Layout of 64-bit Linux; pow(log(CacheSize), 2) is a parameter between 125 and 100000."
  },
  {
   "property": "C77",
   "status": "partial",
   "theorems": [
    "C77_effect_partial",
    "C77_none",
    "C77_fails",
    "C77_update",
    "C77_total",
    "C77_long_partial",
    "C77_line_refuted",
    "C77_junk_refuted"
   ],
   "note": "For rules that are written well or are no address at all and files whose lines are read as written (C38); within the limits of C31 and C32. A line of exactly 511 characters swallows the next one (C77_line_refuted); a mistyped substitute is not noticed and whatever is on the stack is put into replies (C77_junk_refuted)."
  },
  {
   "property": "C78",
   "status": "partial",
   "theorems": [
    "C78_kept_partial",
    "C78_whole",
    "C78_undivided",
    "C78_restart",
    "C78_off",
    "C78_fails",
    "C78_rename_refuted",
    "C78_overwritten_refuted",
    "C78_emptied_refuted",
    "C78_big_refuted"
   ],
   "note": "For paths of at most 252 characters, files below 2 GB, readable old files, and if renaming and creating files succeed. Otherwise: a failure writes to a closed file or to NULL (C78_rename_refuted), an unreadable old file is replaced (C78_overwritten_refuted), an unreadable log file is emptied (C78_emptied_refuted), a file of 2 GB grows on (C78_big_refuted)."
  },
  {
   "property": "C79",
   "status": "partial",
   "theorems": [
    "C79_obtained_partial",
    "C79_ends",
    "C79_thread",
    "C79_unwritable",
    "C79_blocked_refuted",
    "C79_rename_refuted"
   ],
   "note": "C79_obtained_partial: full effect of an update on all files for sources that come to an end, if the temporary files can be written and the rename succeeds; C79_ends: with a limit on the attempts they always come to an end; C79_thread: the events of the updating thread. Not true of the code: the thread asks without a limit, so one remote source that is never obtained keeps it waiting for ever and neither the other sources nor any reload happens (C79_blocked_refuted); the old hosts file is removed before the rename, so a failing rename loses it, and success is reported (C79_rename_refuted). An unwritable temporary file: nothing happens (C79_unwritable). Any URL that begins with the letters file counts as local. Not modelled: libcurl and wget themselves, the waits between attempts, failing writes, what happens if a source is one of the temporary files."
  },
  {
   "property": "C80",
   "status": "partial",
   "theorems": [
    "C80_args",
    "C80_args_exit",
    "C80_args_refuted",
    "C80_args_all",
    "C80_file_partial",
    "C80_directory",
    "C80_options_partial",
    "C80_default",
    "C80_start",
    "C80_home_refuted",
    "C80_user_refuted",
    "C80_comma_refuted"
   ],
   "note": "C80_args, C80_args_exit, C80_args_all: every command line, except that with -f as the last argument the code reads behind the end of the arguments (C80_args_refuted). C80_options_partial, C80_default: all options for every file whose lines fit in the buffer (see C39), for home directories without a comma and of at most 986 bytes (C80_file_partial: at most 298 for the default configuration file). C80_start: the order of starting. Not true of the code: a home directory name of 299 bytes or more overruns a buffer (C80_home_refuted), a user without an entry in the user database makes it read NULL even with -f (C80_user_refuted), a comma in the home directory cuts the default paths (C80_comma_refuted). Not modelled: output, fork, the environment variables' later use (expand is a parameter)."
  },
  {
   "property": "C81",
   "status": "partial",
   "theorems": [
    "C81_file_partial",
    "C81_kept",
    "C81_update_partial",
    "C81_script",
    "C81_start",
    "C81_off",
    "C81_append",
    "C81_answers_partial",
    "C81_long_partial",
    "C81_line_refuted",
    "C81_interval_refuted"
   ],
   "note": "Proved for lines that ReadLine gives as written (at most 318 characters and C38's other conditions; readable) and within C27's reading of lines (listed). C81_update_partial composes C79 with the loader; C81_answers_partial adds AppendHosts and C28. C81_line_refuted: a line of exactly 319 characters takes the next one with it. C81_interval_refuted: ModulesUpdateInterval above 2147483 seconds overflows the milliseconds (wrapping assumed; undefined in C). Missing: the load is one step, the lock around the exchange of tables is not modelled."
  },
  {
   "property": "C82",
   "status": "partial",
   "theorems": [
    "C82_safe_partial",
    "C82_freed",
    "C82_stops",
    "C82_ends",
    "C82_fail_refuted",
    "C82_fatal_refuted",
    "C82_name_refuted",
    "C82_pending_refuted"
   ],
   "note": "Transition system over the shared variables of every group of one load (IsServer, WorkThread, SweepThread, addresses, context), with the worker, sweeper, query, loading and cleaning threads as the code's steps, sequentially consistent. Full: each part of a group is freed at most once, and exactly once before the groups' memory is given back (C82_freed); at most one turn after the order to stop (C82_stops); from every reachable state after a replacement the memory can be given back (C82_ends, possibility from every state, no fairness assumed). C82_safe_partial: nothing touches freed memory provided no load fails after a group was started and no UDP group gives up while it is current, except for the server's name in an error message of a group from a group file. The conditions are needed: C82_fail_refuted (a failed load calls Modules_Free directly, while the workers of the groups already started run), C82_fatal_refuted (a UDP worker that cannot open a socket frees addresses and context, UdpM_Send uses them), C82_name_refuted (ServiceName points into the freed arguments of the group file), C82_pending_refuted (the worker ends without another turn, pending queries lose their replies). A group's strings are taken as freed at the start of the group. How the current map is found under the lock is C47. The parts of a group are blocks of memory here; that the free of the proxies of a TCP group is itself done twice within one cleanup is C91."
  },
  {
   "property": "C83",
   "status": "partial",
   "theorems": [
    "C83_again_partial",
    "C83_ignore_partial",
    "C83_sound_partial",
    "C83_repeated_refuted",
    "C83_datagram_partial",
    "C83_connection_partial"
   ],
   "note": "C83_again_partial: from the bytes of the responses to the bytes of the reply, for all histories before (earlier records of the same names expired) and after (other names, responses that are not first, removals), for a cache with 544 bytes for every record that has come so far: the query is answered as by a cache that holds exactly the records of the response. C83_datagram_partial and C83_connection_partial: the same through the whole program, from the bytes of a datagram or of a TCP connection to what is sent and where, unless the configuration has something about the name; no server is asked. C83_ignore_partial: with IgnoreTTL, when nothing is removed, the records are sent at any later time with the TTLs that they came with. C83_sound_partial: for any history and settings, every record of a reply is a record of a response and its TTL ends with its lifetime. C83_repeated_refuted: a record that is in the cache already keeps its old lifetime when a response brings it again, so within the lifetime that the second response gives it the question is not answered. C83_again_partial, C83_datagram_partial and C83_connection_partial hold with and without CacheParallel; with it every response counts, not only the first, and its records of one name, type and class must have the same lifetime and come within one second. Missing: a full cache (records may then not be stored), with IgnoreTTL names that several responses have records for, and what C61 and C63 miss."
  },
  {
   "property": "C84",
   "status": "partial",
   "theorems": [
    "C84_none_lost",
    "C84_wakeup",
    "C84_never_stuck",
    "C84_drain",
    "C84_last_first",
    "C84_order",
    "C84_timeout",
    "C84_arrival",
    "C84_arrival_at_once",
    "C84_stale",
    "C84_again",
    "C84_posted",
    "C84_not_early_partial",
    "C84_stale_refuted",
    "C84_twice_refuted"
   ],
   "note": "The program as compiled for Windows. Proved for all interleavings: none lost, no lost wake-up (a sleeping scheduler with a message has its event set), the scheduler is never stuck, messages are all taken in as many turns, last first, the started task has the least remaining time, the effect of every turn in full. 'Not early' is false and refuted twice: (1) the event stays set when its message was found without waiting, and the next wait then ends at once and starts the task as if its time were over (C84_stale, C84_stale_refuted); (2) when a task arrives, the time waited is subtracted twice from the task waited for, since it is put back into the queue before the queue is reduced (C84_arrival, C84_twice_refuted). C84_not_early_partial bounds how early a task can be by the sum of the interrupted waits when no event is stale. Assumed: nodes can be allocated, delays below 2^31 ms, the clock does not go back."
  },
  {
   "property": "C85",
   "status": "partial",
   "theorems": [
    "C85_served_partial",
    "C85_datagram_partial",
    "C85_connection_partial",
    "C85_one_message",
    "C85_unsent_refuted",
    "C85_from_cache",
    "C85_no_hosts_partial",
    "C85_alias_lost"
   ],
   "note": "The functions of C45, C28/C65, C63, C33, C57 and C59 composed into one model of MMgr_Send and of a turn of the UDP and of the TCP front end; the theorems say that the result is one of the cases of a relation (due) written over the configuration only. Questions that the cache answers with something else (NS, PTR, several CNAME records, C63) and cached replies that cannot be sent are characterised by C85_from_cache, NS and PTR questions for which nothing is stored by C85_no_hosts_partial. Partial: replies that do not fit behind the query (C63), the root name, other numbers of questions (C59, C65), a query that arrives on its connection in other parts than C57 allows. When the sendto to the program's own alias thread fails, the query is served as without hosts files (C85_alias_lost). Refuted (C85_unsent_refuted, in general C85_from_cache): when the cached reply cannot be sent, MMgr_Send goes on and forwards the reply, which is now in the buffer, to a server group."
  },
  {
   "property": "C86",
   "status": "partial",
   "theorems": [
    "C86_handed",
    "C86_sent_partial",
    "C86_reply_partial",
    "C86_lost_refuted"
   ],
   "note": "C85's outcome N_group composed with the model of the UDP module (C64): the invariant is that a query stays in the table until a reply goes to its client or a sweep more than two seconds later. Partial: no other query of the history has the same identification and hash of the name; the hashes of queries pending with one identification lie in one half of the range (otherwise refuted: C86_lost_refuted, the defect of C22); that a client has 'been sent a reply' may have been by a datagram that was none (C64_stale_refuted); that the cache takes the response in without a fault is C61, here it is a step that is assumed to return; servers are written to only while there is a socket."
  },
  {
   "property": "C87",
   "status": "partial",
   "theorems": [
    "C87_dots_partial",
    "C87_neither",
    "C87_written",
    "C87_dots_refuted",
    "C87_colons_refuted",
    "C87_groups"
   ],
   "note": "False of the code. Exact characterisation of the accepted texts with dots (C87_dots_partial: four numbers with blanks and signs, of any size, and anything behind them; 300.-1.2.3x is 44.255.2.3, C87_dots_refuted); every text with a colon but no '::' is accepted as an IPv6 address, missing groups being stack contents (C87_colons_refuted); texts without dots and colons are rejected (C87_neither). sscanf is modelled from its documentation."
  },
  {
   "property": "C88",
   "status": "partial",
   "theorems": [
    "C88_sent",
    "C88_reply_partial",
    "C88_ap_refuted"
   ],
   "note": "C85's outcome N_group composed with the model of the TCP module (C70, C71). Partial: no other query of the history has the same identification and hash of the name; the hashes of queries pending with one identification lie in one half of the range (see C86_lost_refuted: the same table); the response arrives in one piece, or with its length in a piece of its own (C46); that the cache takes the response in without a fault is C61, here it is a step that is assumed to return. Refuted with the option against pollution (C88_ap_refuted): unlike for UDP, no OPT record is added to what is sent to a TCP server, but replies without one are discarded, so that queries without OPT are never answered."
  },
  {
   "property": "C89",
   "status": "partial",
   "theorems": [
    "C89_servers_partial",
    "C89_family_partial",
    "C89_mixed_refuted",
    "C89_parallel_refuted"
   ],
   "note": "C89_servers_partial: the servers of a group for well-formed items (C72). C89_family_partial: any text, any history; with Parallel, or if all addresses are of one family. Refuted otherwise: without Parallel the socket keeps the family of the server that was current when it was made, so that after a time-out queries for a server of the other family are sent from the wrong socket, until more than eight turns with time-outs and an idle turn let it be made anew (C89_mixed_refuted); with Parallel the servers of the other family are never asked (C89_parallel_refuted). That sendto fails for an address of another family is the system's, not modelled."
  },
  {
   "property": "C90",
   "status": "partial",
   "theorems": [
    "C90_load_partial",
    "C90_protocols",
    "C90_case_refuted",
    "C90_proxy_refuted"
   ],
   "note": "C90_load_partial: for server texts whose items are well-formed addresses (C72), with local ports available (C74) and enough fuel; the load gives the groups of the configuration, or leaves the groups in use. Refuted beyond that: the path of the list of domains in a group file is put into small letters, so a file with capital letters is not found (C90_case_refuted); a TCP group whose proxies name no address is not refused: its servers' addresses are freed twice (C90_proxy_refuted, C91)."
  },
  {
   "property": "C91",
   "status": "partial",
   "theorems": [
    "C91_udp",
    "C91_set_up",
    "C91_stops",
    "C91_each",
    "C91_proxies_each",
    "C91_plain_partial",
    "C91_proxies_refuted",
    "C91_init_refuted"
   ],
   "note": "C91_udp is the full claim for UDP groups. C91_plain_partial: TCP groups without proxies give everything back once, but for the pullers of the servers, which are lost at each end. C91_stops: exactly what is freed twice or lost for each step of the setting-up at which it stops. C91_each and C91_proxies_each: the same block by block, also after something was freed twice. Refuted: a TCP group with proxies frees the addresses of the proxies twice at its end (C91_proxies_refuted), and one whose proxies name no address frees the addresses of its servers twice (C91_init_refuted). Blocks stand for the allocations as the comments in Tmem_Model say; the struct of the module itself, sockets and threads are in C82."
  },
  {
   "property": "C92",
   "status": "partial",
   "theorems": [
    "C92_listing_partial",
    "C92_nothing_partial",
    "C92_shown_unique",
    "C92_all_refuted"
   ],
   "note": "Partial: proved for well-formed responses with a question whose records (up to the first of another class than IN, OPT aside) can be read, when the text fits (C92_listing_partial; C92_nothing_partial for responses without records); C92_shown_unique: what must be shown of a record is determined, but for the choice among texts of an IPv6 address. C92_all_refuted: a record that can be read is not shown if it comes behind one of another class. For arbitrary bytes and for texts that do not fit see C62."
  }
 ]
}