{"id": "C01", "title": "BitsBuf behaves as a bit string with two cursors", "statement": "Starting from an empty buffer or from raw bytes, any sequence of bit/byte reads, bit/byte writes, cursor moves and truncations returns exactly the values (and panics at exactly the calls) of an abstract bit string with a read and a write cursor; the bytes finally extracted are that bit string packed most significant bit first and zero padded.", "quantifier": "all initial byte strings, all finite sequences of public BitsBuf calls with all arguments", "why_tests_cant": "unit tests sample a few op sequences; offsets, partial overwrites and truncation interact in unboundedly many ways", "anchors": ["src/shared/buffer/buffer.rs: BitsBuf::{new,from_raw_bytes,truncate,set_read_pos,set_write_pos,read_bits,read_u8,read_u16,read_u32,read_bytes_vec,write_bits,write_u8,write_u16,write_u32,write_bytes,into_vec}"]}
{"id": "C02", "title": "What is written at the end of a buffer is what is read back", "statement": "Any sequence of typed values (n-bit fields, u8, u16, u32, byte strings) written to an empty buffer and then read in the same order with the same types gives back the same values, whatever the alignment.", "quantifier": "all finite lists of typed values", "why_tests_cant": "round trips over all alignments and all lengths cannot be enumerated", "anchors": ["src/shared/buffer/buffer.rs: write_bits/write_u16/write_u32/write_bytes, read_bits/read_u16/read_u32/read_bytes_vec"]}
{"id": "C03", "title": "Reads past the end return None and change nothing", "statement": "A read that asks for more bits than remain returns None, leaves the read position and the content untouched, and no read ever changes the content; a read that fits always succeeds and advances by exactly the bits asked.", "quantifier": "all reachable buffers, all read sizes", "why_tests_cant": "holds for every buffer state reachable by any history", "anchors": ["src/shared/buffer/buffer.rs: read_bits/read_u16/read_u32/read_bytes_vec"]}
{"id": "C04", "title": "Grammar of accepted domain names", "statement": "A string is accepted as a name exactly when it is the root '.', or it has at most 255 bytes and is a non-empty sequence of dot-terminated labels, each non-empty, made of ASCII letters, digits and hyphens and neither starting nor ending with a hyphen.", "quantifier": "all byte strings", "why_tests_cant": "an equivalence over all strings", "anchors": ["src/shared/dns/name.rs: Name::from_string, validate_name, validate_label"]}
{"id": "C05", "title": "Name wire round trip", "statement": "Encoding an accepted name other than the root whose labels are at most 63 bytes long, placing it anywhere in a packet and decoding at that place returns the same name and leaves the reader just after it.", "quantifier": "all accepted non-root names with labels of at most 63 bytes, all packets containing the encoding at any offset", "why_tests_cant": "all names at all offsets", "anchors": ["src/shared/dns/name.rs: Name::to_bytes, Name::from_bytes"]}
{"id": "C06", "title": "Every accepted name survives the wire", "statement": "Every name the library accepts from a string can be encoded and decoded back to itself (including the root and names with long labels).", "quantifier": "all accepted names", "why_tests_cant": "a universal claim; it fails for names no test uses", "anchors": ["src/shared/dns/name.rs: validate_label (no 63 byte check), Name::to_bytes (root encodes as two zero bytes)"]}
{"id": "C07", "title": "Names decoded from packets are accepted names", "statement": "Whatever the packet, a name returned by the decoder is one that Name::from_string accepts, every label is at most 63 bytes, and the read position afterwards is inside the packet, byte aligned when it started aligned, and never before its starting point.", "quantifier": "all packets, all starting offsets", "why_tests_cant": "adversarial inputs cannot be enumerated", "anchors": ["src/shared/dns/name.rs: Name::from_bytes, validate_name"]}
{"id": "C08", "title": "Name decoding terminates on every packet", "statement": "Decoding a name always finishes: it follows at most 16 compression pointers and reads at most 255 bytes of labels, even on packets whose pointers form cycles.", "quantifier": "all packets, all starting offsets", "why_tests_cant": "pointer cycles of all shapes", "anchors": ["src/shared/dns/name.rs: Name::from_bytes (MAX_REDIR)"]}
{"id": "C09", "title": "Decoded names are the ones RFC 1035 compression denotes", "statement": "If decoding succeeds, the result is the sequence of labels obtained by following labels and compression pointers from that offset as RFC 1035 4.1.4 says; conversely every well-formed compressed name that needs at most 16 pointers (with offsets below 8192) and has at most 255 characters is decoded to exactly those labels.", "quantifier": "all packets and offsets", "why_tests_cant": "soundness and completeness against a declarative wire relation", "anchors": ["src/shared/dns/name.rs: Name::from_bytes"]}
{"id": "C10", "title": "Decoding a name never panics", "statement": "Decoding a name from arbitrary received bytes returns a name or an error and never panics.", "quantifier": "all packets, all offsets, both build profiles", "why_tests_cant": "adversarial inputs", "anchors": ["src/shared/dns/name.rs: Name::from_bytes (set_read_pos on an unchecked pointer, jump_pos * 8)", "src/shared/buffer/buffer.rs: set_read_pos"]}
{"id": "C11", "title": "Zone membership is label-suffix containment", "statement": "For non-root zones, a name is reported in a zone exactly when the zone's labels are a suffix of the name's labels; membership is reflexive and transitive, and is never decided by a partial label match.", "quantifier": "all pairs of accepted names", "why_tests_cant": "all pairs of names", "anchors": ["src/shared/dns/name.rs: Name::is_in_zone, is_in_zone_root, is_only_in_auth_zone"]}
{"id": "C12", "title": "Every name is in the root zone", "statement": "The root zone contains every name.", "quantifier": "all accepted names", "why_tests_cant": "universal over names", "anchors": ["src/shared/dns/name.rs: Name::is_in_zone"]}
{"id": "C13", "title": "Names are compared ignoring ASCII case", "statement": "Two names differing only in letter case denote the same node for zone membership and for lookups (RFC 1034 3.1).", "quantifier": "all pairs of names equal up to case", "why_tests_cant": "universal over names", "anchors": ["src/shared/dns/name.rs: derived PartialEq, is_in_zone", "src/nameserver/handler.rs: handle_auth_zone"]}
{"id": "C14", "title": "Header wire format", "statement": "A header with the standard op code is encoded as exactly the 12 bytes of RFC 1035 4.1.1, and decoding any 12+ byte string with known op and response codes yields the fields at those positions; decode(encode h) = h for every header with z < 8.", "quantifier": "all headers, all byte strings", "why_tests_cant": "all 2^96 headers", "anchors": ["src/shared/dns/header.rs: Header::encode_to_buf, Header::decode_from_buf, Header::decode_from_bytes"]}
{"id": "C15", "title": "Question and record round trip", "statement": "Every question with a non-root name, and every A, NS, CNAME, SOA, PTR, HINFO, MX and port-less WKS record over non-root names with labels of at most 63 bytes, is decoded back unchanged (with its true RDATA length) from its encoding, consuming exactly the encoded bytes.", "quantifier": "all such records and questions, any bytes before and after", "why_tests_cant": "all values of all fields", "anchors": ["src/shared/dns/questions.rs: Question::{encode_to_buf,decode_from_buf}", "src/shared/dns/records.rs: Record::{encode_to_buf,decode_from_buf}"]}
{"id": "C16", "title": "TXT records round trip", "statement": "A TXT record that is encoded can be decoded back to the same texts.", "quantifier": "all TXT records", "why_tests_cant": "universal over texts", "anchors": ["src/shared/dns/records.rs: decode_txt_data (set_read_pos(pos - 1)), encode_txt_data"]}
{"id": "C17", "title": "WKS records round trip and decode safely", "statement": "A WKS record with ports can be encoded and decoded back, and decoding any received WKS record returns.", "quantifier": "all WKS records / all packets carrying one", "why_tests_cant": "universal over ports", "anchors": ["src/shared/dns/records.rs: decode_wks_data, encode_wks_data, parse_wks_ports"]}
{"id": "C18", "title": "RDLENGTH is enforced", "statement": "A name-bearing or HINFO record is only accepted when its declared RDLENGTH equals the number of bytes its data occupies.", "quantifier": "all packets, both build profiles", "why_tests_cant": "all lengths including those that overflow 16-bit arithmetic", "anchors": ["src/shared/dns/records.rs: decode_{a,ns,cname,soa,ptr,hinfo,mx}_data"]}
{"id": "C19", "title": "Message round trip", "statement": "Every message with matching section counts, op code STD and round-trippable questions and records is decoded back unchanged from its encoding.", "quantifier": "all such messages of any size", "why_tests_cant": "all messages", "anchors": ["src/shared/dns/message.rs: Message::{encode_to_bytes,decode_from_bytes}"]}
{"id": "C20", "title": "Only supported features enter the system", "statement": "A successfully decoded message has op code STD, class IN everywhere, question types that are supported for questions and only supported record types, valid names, and no more entries per section than its header announces.", "quantifier": "all byte strings", "why_tests_cant": "adversarial inputs", "anchors": ["src/shared/dns/message.rs: Message::decode_from_bytes", "src/shared/dns/types.rs", "src/shared/dns/class.rs", "src/shared/dns/header.rs: is_supported"]}
{"id": "C21", "title": "Unknown record types are skipped exactly", "statement": "A record of unknown type with any owner, class, TTL and data is skipped consuming exactly its own bytes: decoding a section in which such records are interleaved yields the same records as decoding the section without them.", "quantifier": "all sections, all unknown types, all positions", "why_tests_cant": "all interleavings", "anchors": ["src/shared/dns/records.rs: decode_record_type", "src/shared/dns/message.rs: decode_from_bytes"]}
{"id": "C22", "title": "Decoding a packet never panics or hangs", "statement": "Decoding arbitrary received bytes always returns a message or an error.", "quantifier": "all byte strings, both build profiles", "why_tests_cant": "adversarial inputs", "anchors": ["src/shared/dns/message.rs: Message::decode_from_bytes", "src/shared/dns/records.rs: decode_wks_data (unwrap, endless loop)", "src/shared/dns/name.rs: from_bytes"]}
{"id": "C23", "title": "UDP encoding fits 512 bytes", "statement": "The truncating encoder never returns more than 512 bytes.", "quantifier": "all messages", "why_tests_cant": "all sizes around the boundary", "anchors": ["src/shared/dns/message.rs: Message::encode_to_bytes_trunc"]}
{"id": "C24", "title": "Truncation keeps a decodable prefix and says so", "statement": "The truncating encoder returns the header followed by a maximal prefix of the entries (in section order) that fits in 512 bytes; the counts in the header equal the entries kept; the TC flag is set when an entry was dropped and otherwise is the one given; every other header field is unchanged; and for round-trippable messages the bytes decode to exactly that prefix.", "quantifier": "all messages with consistent counts", "why_tests_cant": "boundary behaviour for all entry sizes", "anchors": ["src/shared/dns/message.rs: Message::encode_to_bytes_trunc"]}
{"id": "C25", "title": "Short messages are not altered by the UDP encoder", "statement": "If the full encoding has at most 512 bytes the truncating encoder returns exactly the full encoding.", "quantifier": "all messages with consistent counts", "why_tests_cant": "all sizes", "anchors": ["src/shared/dns/message.rs: encode_to_bytes_trunc, encode_to_bytes"]}
{"id": "C26", "title": "Numeric and textual code tables are inverse", "statement": "Type, class, op code and response code numbers convert to and from their enums without loss, unknown numbers are reported unchanged, and type names in text convert to and from their enum without loss.", "quantifier": "all 16-bit numbers / all enum values / all strings", "why_tests_cant": "whole tables including the unknown range", "anchors": ["src/shared/dns/types.rs: from_num,to_num,from_str,to_str", "src/shared/dns/class.rs: from_num,to_num,from_string", "src/shared/dns/header.rs: OpCode, RespCode"]}
{"id": "C27", "title": "Character strings", "statement": "A string of at most 255 bytes is encoded as its length followed by its bytes and decoded back; longer ones are refused by the encoder; the decoder returns only valid UTF-8 and refuses everything else.", "quantifier": "all strings, all byte strings", "why_tests_cant": "all strings", "anchors": ["src/shared/dns/utils.rs: decode_character_string, encode_character_string"]}
{"id": "C28", "title": "Replies mirror the request", "statement": "Every message the nameserver produces for a decoded request carries the request's id, op code, and recursion-desired flag, has the response flag set, recursion-available clear, Z zero, and repeats the request's questions.", "quantifier": "all zones, all requests", "why_tests_cant": "all requests and zones", "anchors": ["src/nameserver/handler.rs: resp_header_from_req_header, handle_*"]}
{"id": "C29", "title": "Names outside the zone are refused", "statement": "A valid query for a name outside the authoritative zone gets REFUSED with empty answer, authority and additional sections.", "quantifier": "all zones, all valid queries", "why_tests_cant": "all names", "anchors": ["src/nameserver/handler.rs: handle_query, handle_err"]}
{"id": "C30", "title": "Names in a sub zone are delegated", "statement": "A valid query for a name inside a delegated sub zone is never answered from authoritative data: the reply is a non-authoritative NOERROR with no answers, whose authority section is exactly that sub zone's NS records and whose additional section is exactly the A records the sub zones hold for those servers.", "quantifier": "all loaded zones, all valid queries", "why_tests_cant": "all names and zones", "anchors": ["src/nameserver/handler.rs: handle_subzone, search_a_additionals_for_subzone_ns"]}
{"id": "C31", "title": "Authoritative answers are exactly the zone's records", "statement": "A valid query for a name in the authoritative zone and no sub zone returns, authoritatively, exactly the zone's records with that owner and type in file order, or, if there are none, exactly the owner's CNAME records.", "quantifier": "all loaded zones, all valid queries", "why_tests_cant": "all names/types", "anchors": ["src/nameserver/handler.rs: handle_auth_zone", "src/nameserver/zones/parser.rs: Zone::get"]}
{"id": "C32", "title": "Negative answers carry the SOA", "statement": "If the authoritative zone has neither records of that type nor a CNAME at the name, the reply is authoritative NXDOMAIN with no answers and the zone's SOA as only authority record.", "quantifier": "all loaded zones, all valid queries", "why_tests_cant": "all names/types", "anchors": ["src/nameserver/handler.rs: handle_auth_zone, handle_nx_err"]}
{"id": "C33", "title": "NXDOMAIN means the name does not exist", "statement": "NXDOMAIN is only returned for names that own no record of any type in the zone.", "quantifier": "all loaded zones, all valid queries", "why_tests_cant": "all names/types", "anchors": ["src/nameserver/handler.rs: handle_auth_zone"]}
{"id": "C34", "title": "Malformed requests get an error reply", "statement": "A request whose header is readable but which is malformed or uses unsupported features gets a FORMERR or NOTIMP reply.", "quantifier": "all byte strings", "why_tests_cant": "adversarial inputs", "anchors": ["src/nameserver/handler.rs: handle_decode_err", "src/resolver/handler.rs: handle_decode_err", "src/shared/dns/message.rs: encode_to_bytes_trunc"]}
{"id": "C35", "title": "Unreadable requests are dropped", "statement": "A request whose header cannot be decoded causes no reply, no panic and no state change; so does a TCP stream that ends before the announced length.", "quantifier": "all byte strings", "why_tests_cant": "adversarial inputs", "anchors": ["src/nameserver/handler.rs: handle_dns_request", "src/shared/net/udp_server.rs: UdpRequest::read", "src/shared/net/tcp_server.rs: TcpRequest::read"]}
{"id": "C36", "title": "A query of unknown type is answered", "statement": "A well-formed query for a record type the server does not know is answered with an error code rather than crashing the worker.", "quantifier": "all well-formed queries with unknown type", "why_tests_cant": "all type numbers", "anchors": ["src/nameserver/handler.rs: validate_dns_request, handle_err", "src/resolver/handler.rs: handle_request (questions[0])"]}
{"id": "C37", "title": "A loaded zone never makes the server panic on a valid query", "statement": "For every zone the loader accepts and every valid query, computing the reply and encoding it for UDP or TCP does not panic.", "quantifier": "all accepted zone files, all valid queries", "why_tests_cant": "combines loader invariants with handler unwraps", "anchors": ["src/nameserver/handler.rs: handle_auth_zone/handle_subzone unwraps", "src/shared/net/udp_server.rs: reply unwrap", "src/shared/net/tcp_server.rs: reply unwrap", "src/nameserver/zones/utils.rs: parse_char_string (no length check)"]}
{"id": "C38", "title": "TCP framing is exact", "statement": "On TCP the reply is preceded by its exact length as two big-endian bytes, and a request is read as exactly the announced number of bytes.", "quantifier": "all replies, all streams", "why_tests_cant": "all sizes including those above 65535", "anchors": ["src/shared/net/tcp_server.rs: TcpResponse::reply, TcpRequest::read"]}
{"id": "C39", "title": "Zone storage returns what was inserted", "statement": "After any sequence of insertions and merges of included files, looking up an owner and type returns exactly the inserted records with that owner and type in insertion order (None if none), independently of hash iteration order.", "quantifier": "all operation sequences, all iteration orders", "why_tests_cant": "all histories and hash orders", "anchors": ["src/nameserver/zones/parser.rs: Zone::{insert,get,get_all_of_type,extend}"]}
{"id": "C40", "title": "Loaded authoritative records respect the zone", "statement": "Every record of a loaded authoritative zone has class IN, a supported type, an owner inside the zone, a valid owner name and valid names in its data, and a TTL not below the SOA minimum; names written explicitly as owners are never inside a configured sub zone.", "quantifier": "all zone files, include trees and configurations", "why_tests_cant": "all files", "anchors": ["src/nameserver/zones/parser_auth.rs: parse_record, parse_origin, parse_include, parse_starting_soa_record"]}
{"id": "C41", "title": "Exactly one SOA, at the apex; NS at the apex", "statement": "A loaded authoritative zone holds exactly one SOA record, owned by the zone apex, at least one NS record, and all its NS records are owned by the apex.", "quantifier": "all zone files", "why_tests_cant": "all files", "anchors": ["src/nameserver/zones/parser_auth.rs: parse_starting_soa_record, parse_record", "src/nameserver/zones/parser.rs: validate_auth_zone"]}
{"id": "C42", "title": "Loaded sub zones hold only NS and glue", "statement": "Every record of a loaded sub zone is an NS record at its apex or an A record inside it, of class IN and TTL at least the configured minimum; there is at least one NS record; every name server lying in a loaded sub zone and in the authoritative zone has an A record in that sub zone; every A record's owner is the target of an NS record of some loaded sub zone.", "quantifier": "all sub zone files and configurations", "why_tests_cant": "all files", "anchors": ["src/nameserver/zones/parser_sub.rs: parse_record", "src/nameserver/zones/parser.rs: validate_subzone, search_glue_records, search_referred_ns"]}
{"id": "C43", "title": "Loading a zone file terminates without panicking", "statement": "Loading any zone file finishes with a zone or an error; it neither panics nor runs forever.", "quantifier": "all file contents and include graphs", "why_tests_cant": "adversarial text", "anchors": ["src/nameserver/zones/tokens.rs: process_string_or_number, parse_escape", "src/nameserver/zones/parser_auth.rs: parse_included_file, parse_txt_record"]}
{"id": "C44", "title": "Tokenizing is total on plain files", "statement": "On files without backslashes whose only white space characters are space and tab the tokenizer never panics, always makes progress, and reaches the end of the file after at most as many tokens as there are characters plus lines.", "quantifier": "all such files", "why_tests_cant": "all files", "anchors": ["src/nameserver/zones/tokens.rs: Tokenizer::next"]}
{"id": "C45", "title": "Comments and blank lines are invisible", "statement": "Inserting or deleting blank lines and comment-only lines, anywhere (also inside a parenthesised group) never changes the sequence of tokens.", "quantifier": "all files and positions", "why_tests_cant": "all files", "anchors": ["src/nameserver/zones/tokens.rs: load_new_line, process_comment"]}
{"id": "C46", "title": "Included files do not leak parsing state", "statement": "After an $INCLUDE the including file continues with the origin and default TTL it had before; the included file starts with the stated (or current) origin and the current default TTL.", "quantifier": "all files", "why_tests_cant": "all include trees", "anchors": ["src/nameserver/zones/parser_auth.rs: parse_included_file, parse_entries"]}
{"id": "C47", "title": "Omitted TTLs inherit the previous record's", "statement": "A record without TTL gets the TTL of the record before it in the same file, or the configured starting TTL (at the start of an included file, the includer's current TTL).", "quantifier": "all files", "why_tests_cant": "all files", "anchors": ["src/nameserver/zones/parser_auth.rs: parse_record, parse_entries", "src/nameserver/zones/parser_sub.rs: parse_record, parse_entries"]}
{"id": "C48", "title": "The cache is a map with expiry", "statement": "For every history of sets, gets, removes and cleanings by any number of threads, a get returns exactly the value of the latest set of that key if it has not expired and was not removed since, and nothing otherwise.", "quantifier": "all histories, all non-decreasing clock readings, all thread interleavings", "why_tests_cant": "all histories and schedules", "anchors": ["src/resolver/back_end/cache.rs: Cache::{set,get_clone,on_found,remove,clean}"]}
{"id": "C49", "title": "Cleaning is unobservable and complete", "statement": "Cleaning never changes the result of any later call, and afterwards no entry expired at that moment is stored.", "quantifier": "all cache states and histories", "why_tests_cant": "all histories", "anchors": ["src/resolver/back_end/cache.rs: Cache::clean"]}
{"id": "C50", "title": "Cached records never outlive their TTL and report what is left of it", "statement": "Records read back from the cache carry as TTL the whole seconds left, never more than the TTL they were stored with, and are never returned at or after expiry.", "quantifier": "all stores, all read times, all interleavings with other threads", "why_tests_cant": "timing and schedules", "anchors": ["src/resolver/back_end/recursive.rs: search_records_in_cache, save_records_in_cache"]}
{"id": "C51", "title": "Cache entries belong to their key", "statement": "Every record stored under a (name, type) key has that type, and all records under a key share one TTL, the lowest of the group.", "quantifier": "all lookup histories", "why_tests_cant": "all upstream behaviours", "anchors": ["src/resolver/back_end/recursive.rs: save_records_in_cache, save_nss_in_cache"]}
{"id": "C52", "title": "Cache entries have the owner of their key", "statement": "Every record returned from the cache for a name is owned by that name.", "quantifier": "all upstream behaviours", "why_tests_cant": "all upstream behaviours", "anchors": ["src/resolver/back_end/recursive.rs: save_nss_in_cache (keyed by the first NS record only)"]}
{"id": "C53", "title": "Extraction splits a section exactly", "statement": "Extracting the records of a type and owner from a section returns exactly those records and leaves exactly the others (as multisets), whatever their positions.", "quantifier": "all record lists", "why_tests_cant": "all positions", "anchors": ["src/resolver/back_end/utils.rs: extract_records, extract_record"]}
{"id": "C54", "title": "Name servers with addresses are tried first", "statement": "Sorting name servers keeps exactly the same servers, puts all those with an address before all those without, and keeps the relative order inside each group.", "quantifier": "all server lists", "why_tests_cant": "all lists", "anchors": ["src/resolver/back_end/utils.rs: sort_nameservers"]}
{"id": "C55", "title": "Domain hierarchy", "statement": "The zones searched for cached name servers are exactly the queried name and its ancestors (root excluded) from the most specific to the least, and each is an accepted name.", "quantifier": "all accepted names", "why_tests_cant": "all names", "anchors": ["src/resolver/back_end/recursive.rs: generate_domain_hierarchy, search_nss_in_cache_with_trace"]}
{"id": "C56", "title": "Lookups terminate whatever upstream servers answer", "statement": "Every lookup finishes with an answer or an error for every behaviour of the network, as long as decoding each received packet itself returns.", "quantifier": "all network behaviours, cache contents, interleavings and configurations", "why_tests_cant": "adversarial upstream behaviour over unbounded time", "anchors": ["src/resolver/back_end/recursive.rs: perform_inner, query_nameservers_iteratively, resolve_ns_subquery", "src/resolver/back_end/utils.rs: detect_zones_loop", "src/resolver/back_end/requests.rs: is_nameserver_authority_a_subzone"]}
{"id": "C57", "title": "Answers form a CNAME chain from the question", "statement": "The answer section of a successful lookup is a chain of CNAME records starting at the queried name, each pointing at the next one's owner, without repetition of owners, followed by records of the queried type owned by the last target; its length never exceeds the configured maximum.", "quantifier": "all network behaviours and well-keyed caches", "why_tests_cant": "all upstream behaviours", "anchors": ["src/resolver/back_end/recursive.rs: perform_inner, handle_cname", "src/resolver/back_end/utils.rs: detect_cname_loops"]}
{"id": "C58", "title": "Delegations only descend", "statement": "The resolver only follows a delegation to a zone that encloses the searched name and is strictly below the zone of the server that sent it.", "quantifier": "all responses", "why_tests_cant": "adversarial upstream", "anchors": ["src/resolver/back_end/requests.rs: is_nameserver_authoritative_over_node, is_nameserver_authority_a_subzone"]}
{"id": "C59", "title": "Upstream work is bounded by the configuration", "statement": "For one zone cut no more than max_ns_queried servers are asked, each at most max_ns_retries times; a lookup therefore sends a bounded number of packets that depends on the configuration only.", "quantifier": "all network behaviours", "why_tests_cant": "adversarial upstream", "anchors": ["src/resolver/back_end/recursive.rs: query_nameservers_iteratively", "src/resolver/back_end/requests.rs: send_query_with_retries"]}
{"id": "C60", "title": "Off-path and off-topic data is not believed", "statement": "A response is only used if it carries the id of the query sent, and data in it is only cached or used for names the answering server may speak for.", "quantifier": "all responses", "why_tests_cant": "adversarial upstream", "anchors": ["src/resolver/back_end/requests.rs: send_query, extract_next_nss_for_subzone", "src/resolver/back_end/recursive.rs: save_nss_in_cache"]}
{"id": "C61", "title": "Lookups never panic", "statement": "No upstream behaviour makes a lookup panic.", "quantifier": "all network behaviours", "why_tests_cant": "adversarial upstream", "anchors": ["src/resolver/back_end/requests.rs: send_udp_packet (first().unwrap())", "src/resolver/back_end/recursive.rs: save_records_in_cache asserts"]}
{"id": "C62", "title": "No trace when tracing is off", "statement": "If tracing is disabled the trace returned by a lookup is empty.", "quantifier": "all lookups", "why_tests_cant": "all behaviours", "anchors": ["src/resolver/back_end/trace.rs: add_sub_trace", "src/resolver/back_end/recursive.rs: perform"]}
{"id": "C63", "title": "Resolver replies mirror the request", "statement": "Every message the resolver produces carries the request's id, op code and recursion-desired flag, is a response with recursion available, repeats the question, and its counts equal its sections; failures become SERVFAIL, missing names NXDOMAIN.", "quantifier": "all requests and lookup outcomes", "why_tests_cant": "all requests", "anchors": ["src/resolver/handler.rs: handle_query, handle_err, resp_header_from_req_header"]}
{"id": "C64", "title": "Thread pool runs each job at most once, in order", "statement": "Under every schedule each submitted job is started at most once, jobs are started in submission order, and when no job panics dropping the pool returns only after every submitted job has finished.", "quantifier": "all schedules, all job lists, all pool sizes", "why_tests_cant": "all interleavings", "anchors": ["src/shared/thread_pool.rs: ThreadPool::{new,execute,drop}, Worker::new"]}
{"id": "C65", "title": "The server keeps serving after any request", "statement": "However many requests arrive and whatever they contain, later valid requests are still served.", "quantifier": "all request sequences and schedules", "why_tests_cant": "all histories", "anchors": ["src/shared/thread_pool.rs: Worker::new (no catch_unwind)", "src/shared/net/udp_server.rs: start_udp_server", "src/shared/net/tcp_server.rs: start_tcp_server"]}
{"id": "C66", "title": "Accepted configurations are usable", "statement": "A configuration accepted at start-up has the thread counts, timeouts, limits and zone names the servers need to run.", "quantifier": "all configurations", "why_tests_cant": "all combinations", "anchors": ["src/nameserver/conf.rs: Conf::validate", "src/resolver/conf.rs: Conf::validate", "src/shared/net/tcp_server.rs: setup_connection"]}
{"id": "C67", "title": "The cache keeps working after any call", "statement": "Whatever calls were made before, including on_found with a callback that panics, later calls on the cache return and do not panic.", "quantifier": "all histories of calls, all callbacks", "why_tests_cant": "all histories", "anchors": ["src/resolver/back_end/cache.rs: on_found, lock().unwrap()"]}
{"id": "C68", "title": "Malformed requests to the resolver get an error reply", "statement": "A request whose header can be read but which cannot be decoded, or which is no query, is answered with FORMERR or NOTIMP; only packets without a readable header are dropped.", "quantifier": "all packets on both transports", "why_tests_cant": "all byte strings", "anchors": ["src/resolver/handler.rs: handle_request, handle_decode_err, handle_err"]}
{"id": "C69", "title": "Queries of unknown types get a reply from the resolver", "statement": "A well-formed query whose type or class the resolver does not know is answered with an error reply.", "quantifier": "all such queries, on both transports", "why_tests_cant": "all packets", "anchors": ["src/resolver/handler.rs: handle_request (questions[0]), validate_dns_request"]}
{"id": "C70", "title": "Every valid query gets a reply from the resolver", "statement": "For every valid query, whatever the upstream servers do, the resolver sends a reply that says what the lookup found: the records, NXDOMAIN or SERVFAIL.", "quantifier": "all queries, upstream behaviours, cache contents", "why_tests_cant": "all histories", "anchors": ["src/resolver/handler.rs: handle_query", "src/resolver/back_end/recursive.rs: perform", "src/shared/net/tcp_server.rs: TcpResponse::reply", "src/shared/net/udp_server.rs: UdpResponse::reply"]}
{"id": "C71", "title": "Dropping a thread pool returns", "statement": "Under every schedule a drop of the pool, once called, returns after a bounded number of steps and then every submitted job has finished, whatever the jobs did.", "quantifier": "all schedules, all jobs including panicking ones, all pool sizes", "why_tests_cant": "all interleavings", "anchors": ["src/shared/thread_pool.rs: Drop for ThreadPool (join().unwrap())"]}
{"id": "C72", "title": "Failure of one server shuts the other down cleanly", "statement": "start_servers keeps both servers running until one of them ends; then the other is torn down and start_servers returns, with both servers ended.", "quantifier": "all schedules of the three threads, all request arrivals", "why_tests_cant": "all interleavings", "anchors": ["src/shared/net/setup.rs: start_servers, wake_up_servers"]}
{"id": "C73", "title": "All configured tries are made", "statement": "A request to an upstream server is repeated until a response comes in that decodes and carries the id sent, and given up only after exactly the configured number of tries; the first such response is the one used.", "quantifier": "all packet losses and damages, all retry limits", "why_tests_cant": "all loss patterns", "anchors": ["src/resolver/back_end/requests.rs: send_query_with_retries, perform_request", "src/resolver/back_end/recursive.rs: perform_request_with_trace"]}
{"id": "C74", "title": "One working server is enough", "statement": "If one of the servers with known addresses that are asked for a zone answers helpfully, within the configured tries, then asking that zone does not fail, whatever the other servers do.", "quantifier": "all server behaviours, orders, limits", "why_tests_cant": "all combinations of failures", "anchors": ["src/resolver/back_end/recursive.rs: query_nameservers_iteratively", "src/resolver/back_end/utils.rs: sort_nameservers"]}
{"id": "C75", "title": "Upstream queries say what is asked", "statement": "Every packet sent upstream is a standard query (recursion not desired, class IN) with exactly one question: the name and type looked up, the target of an alias of it, or the address of a name server; and it goes to an address from an address record the lookup got.", "quantifier": "all lookups, all upstream behaviours", "why_tests_cant": "all histories", "anchors": ["src/resolver/back_end/requests.rs: build_dns_request, send_query", "src/resolver/back_end/recursive.rs: perform_inner, resolve_ns_subquery"]}
{"id": "C76", "title": "Answers are cached", "statement": "A lookup that succeeded, repeated while the records it returned are still valid, succeeds again without sending anything upstream; if no alias was involved it returns the same records (with their TTLs counted down).", "quantifier": "all lookups, all upstream behaviours, all aliases, all times before the expiry", "why_tests_cant": "two successive runs are compared, for all histories", "anchors": ["src/resolver/back_end/cache.rs: ResolverCache", "src/resolver/back_end/recursive.rs: perform_inner, save_records, search_records_cached"]}
{"id": "C77", "title": "Names are said not to exist only on authority", "statement": "A lookup ends with NXDOMAIN only if, during that lookup, a response to a query for the end of the alias chain came in that has the authority bit and says so.", "quantifier": "all lookups, all upstream behaviours", "why_tests_cant": "all histories", "anchors": ["src/resolver/back_end/requests.rs: perform_request", "src/resolver/back_end/recursive.rs: perform_inner"]}
{"id": "C78", "title": "In a healthy DNS, lookups find what is there", "statement": "If the root servers and the servers of all zones respond (to one of the configured number of tries) and tell the truth, but for fewer per zone than the resolver is configured to try, a lookup returns the aliases that lead from the name, in order, and then the records of the type at their end; or that there are none. This holds for any number of lookups in any order, whatever true records earlier lookups and other threads have cached.", "quantifier": "all contents of the DNS, all honest and responsive servers, all questions, all sequences of lookups, all true caches", "why_tests_cant": "it ranges over whole histories of lookups in all possible domain name systems", "anchors": ["src/resolver/back_end/recursive.rs: perform", "src/resolver/back_end/requests.rs: perform_request", "src/resolver/back_end/cache.rs: get, set", "src/resolver/back_end/utils.rs: root_zone_nameservers"]}
{"id": "C79", "title": "The resolver and the name server of this project understand each other", "statement": "A question the resolver sends to a name server of this project is understood, and what it reads from the reply is what the zone files of that server say: the records asked for, the alias, the servers of the sub zone with their addresses, that there is nothing, or that the zone is somebody else's.", "quantifier": "all zones, all questions, both build profiles on either side", "why_tests_cant": "two programs are composed, over all zone contents and questions", "anchors": ["src/resolver/back_end/requests.rs: perform_request", "src/nameserver/handler.rs: handle_dns_request", "src/shared/net/udp_server.rs: UdpRequest, UdpResponse"]}
{"id": "C80", "title": "Tracing changes nothing", "statement": "Whether and how verbosely lookups are traced makes no difference to their outcome, to the cache, or to what is sent upstream.", "quantifier": "all lookups, all upstream behaviours, all tracing settings", "why_tests_cant": "two whole runs are compared, for all histories", "anchors": ["src/resolver/back_end/trace.rs: Tracer", "src/resolver/back_end/recursive.rs: perform, resolve_ns_subquery", "src/resolver/back_end/requests.rs: perform_request_with_trace"]}
{"id": "C81", "title": "A zone is loaded exactly when its files are well formed", "statement": "The server starts with the configured zones if and only if the files exist, can be read, follow the zone file grammar to their end (SOA first, at the apex, class written; owners and origins inside the zone and not delegated; no TTL below the minimum; no other SOA; sub zone files with NS and A records only) and the records form proper zones (NS records at each apex and nowhere else, the glue that is needed and no other). It then serves exactly the records of the files. If loading ends, all other files are refused with an error.", "quantifier": "all zone files, included files and configurations with usable zone names", "why_tests_cant": "a completeness statement over all files: no set of accepted and refused samples shows it", "anchors": ["src/nameserver/zones/parser.rs: parse_zone_files, validate_auth_zone, validate_subzone", "src/nameserver/zones/parser_auth.rs: parse_auth_zone_file, parse_entries", "src/nameserver/zones/parser_sub.rs: parse_sub_zone_file"]}
{"id": "C82", "title": "Zone file text divides into tokens as the lexical rules say", "statement": "A zone file is read to its end, yielding a given sequence of tokens, exactly when its text divides into that sequence by the lexical rules: lines of only white space and comments do not count; a semicolon starts a comment; between lines there is an end-of-line token unless a parenthesis is open, and parentheses must match; blanks are runs of white space starting with a space or tab; a word runs to white space, a semicolon or a parenthesis, a quoted string to the closing quote on the same line; a backslash makes the next character ordinary; @ is the origin, unsigned 32-bit decimals are numbers, $ORIGIN and $INCLUDE are directives and every other word starting with $ is an error; text is passed on in UTF-8.", "quantifier": "all files, with any characters", "why_tests_cant": "unbounded texts: every combination of escapes, quotes, parentheses, comments and characters", "anchors": ["src/nameserver/zones/tokens.rs: Tokenizer::next, load_new_line, process_directive, process_quoted_string, process_string_or_number"]}
{"id": "C83", "title": "Traces are printed in full", "statement": "Printing the trace of a lookup shows everything it recorded, in order, with nested lookups indented by their depth; it never fails, so that logging a trace does not keep a query from being answered.", "quantifier": "all traces, of any length and nesting; all lookups, upstream behaviours and log levels", "why_tests_cant": "unbounded nesting; all histories", "anchors": ["src/resolver/back_end/trace.rs: Display for Trace, display_trace_lines", "src/resolver/handler.rs: handle_query"]}
{"id": "C84", "title": "A trace tells of every packet sent", "statement": "With tracing on, the packets a lookup sends, including those of nested lookups, are exactly those its trace tells of, in the same order: for every server asked a line with the name and type asked for, which stands for at least one and at most the configured number of packets, all to one address and all asking that; then (if verbose) the response in full, which really came in in answer to the last of them, and what it means, showing only records it contains, or why there is none.", "quantifier": "all lookups, all upstream behaviours, caches and configurations with tracing on", "why_tests_cant": "the trace and the packets of all histories are compared", "anchors": ["src/resolver/back_end/trace.rs: Trace, t_ns_req, t_ns_resp, t_ns_resp_err, t_raw_resp, add_sub_trace", "src/resolver/back_end/recursive.rs: perform_request_with_trace, resolve_ns_subquery"]}
{"id": "C85", "title": "What is published with the name server is found by the resolver", "statement": "Zone files that are well formed and say what there is, loaded by name servers of this project (which may lose packets), are found by the resolver of this project: every lookup of a sequence returns exactly the records written in the files of the zones concerned, following delegations and aliases between zones, whether those zones are served by this project or by other honest servers.", "quantifier": "all zone files, delegations and glue, debug and release builds on both sides, loss patterns, caches, sequences of lookups", "why_tests_cant": "it composes loading, serving, encoding, decoding and resolving for all zone contents and all lookup histories", "anchors": ["src/nameserver/handler.rs: handle_dns_request", "src/resolver/back_end/recursive.rs: Lookup::perform", "src/nameserver/zones/parser.rs: parse_zone_files"]}
{"id": "C86", "title": "Clients of the resolver are told what there is", "statement": "In a healthy DNS, every client query (UDP or TCP), one after the other, is answered, from the bytes received to the bytes sent: the reply mirrors the query and carries the aliases in order and exactly the records there are, or NXDOMAIN when there are none. In particular zone files published with this project's name servers reach clients of this project's resolver.", "quantifier": "all healthy DNSs, zone files, caches, sequences of client queries over both transports, concurrent lookups", "why_tests_cant": "it composes decoding, lookup, caching, reply and encoding over all histories", "anchors": ["src/resolver/handler.rs: handle_request, handle_query", "src/resolver/back_end/recursive.rs: Lookup::perform", "src/shared/net/udp_server.rs: UdpResponse", "src/shared/net/tcp_server.rs: TcpResponse"]}
{"id": "C87", "title": "Exactly which requests crash the name server", "statement": "A name server with loaded zones (character strings not over-long) crashes the worker that handles a request exactly in these cases: the decoder panics; the header can be read but the rest not; or questions were skipped (unknown types), and what is left is no query that the zone answers with records, an alias or a referral (over UDP: unless the questions left do not fit into 512 bytes). Nothing makes it hang but the decoder.", "quantifier": "all zones, all datagrams and TCP streams, both build profiles", "why_tests_cant": "an equivalence over all byte strings and zones", "anchors": ["src/nameserver/handler.rs: handle_dns_request", "src/shared/net/udp_server.rs: UdpResponse::reply", "src/shared/net/tcp_server.rs: TcpResponse::reply", "src/nameserver/handler.rs: handle_decode_err"]}
{"id": "C88", "title": "A trace is an account of the lookup", "statement": "With tracing on, the trace of a lookup tells, in order: each name, whether the cache had its records or an alias, whom there was to ask, each server asked and what came of it, sub-lookups (accounts of their own) before the servers they are for; and the result of a successful lookup can be read off it: the aliases told in order, then the records of the last line.", "quantifier": "all lookups, upstream behaviours, cache states", "why_tests_cant": "ranges over all executions of a lookup", "anchors": ["src/resolver/back_end/trace.rs: t_* methods", "src/resolver/back_end/recursive.rs: perform_inner, perform_request_with_trace, search_records_in_cache_with_trace"]}
{"id": "C89", "title": "Exactly which client requests crash the resolver", "statement": "Whatever servers the resolver talks to and whatever it has cached, a client's request crashes the worker that handles it exactly in these cases: the decoder panics; the header can be read but the rest not; questions were skipped (unknown types) and (over UDP) those left fit into 512 bytes; or it is a query whose lookup panics, or, in a debug build that logs, ends with a trace nested deeper than 255. It hangs only if the decoder or the lookup does, goes unanswered only if the header cannot be read, and otherwise a reply is sent. What is no query touches neither cache nor network.", "quantifier": "all requests over UDP and TCP, all upstream behaviours and cache states, both build profiles", "why_tests_cant": "an equivalence over all byte strings, networks and caches", "anchors": ["src/resolver/handler.rs: handle_request", "src/shared/net/udp_server.rs: UdpResponse::reply", "src/shared/net/tcp_server.rs: TcpResponse::reply", "src/resolver/handler.rs: handle_decode_err"]}
{"id": "C90", "title": "A lookup is determined by the replies it receives", "statement": "What comes of a lookup (answer, error or panic; cache contents; packets sent; trace) is determined by the cache it started from, the clock readings and ids it drew and what other threads did to the cache while it ran, and the replies to the packets it sent: in any other environment that agrees on these, whatever it does otherwise (replies to other packets, anything before or after), the same comes of it.", "quantifier": "all lookups, pairs of environments, cache states", "why_tests_cant": "a statement about pairs of executions", "anchors": ["src/resolver/back_end/recursive.rs: Lookup::perform", "src/resolver/back_end/requests.rs: send_query", "src/resolver/back_end/recursive.rs: search_records_in_cache"]}
{"id": "C91", "title": "Lookups are nested no deeper than there are zones", "statement": "A lookup that needs the address of a name server starts another lookup, which may start another. However servers refer to each other, such lookups are nested at most as deep as the number of different zones in the NS records that were in the cache, that other threads stored, that are built in (the root zone), or that the lookup received; so a bounded number of zones bounds the recursion, and with at most 255 zones the trace is printed and the query answered in debug builds too.", "quantifier": "all environments, cache states, questions, configurations, lengths of runs", "why_tests_cant": "no configuration value bounds the recursion; the bound must hold for every tree of delegations", "anchors": ["src/resolver/back_end/recursive.rs: resolve_ns_subquery", "src/resolver/back_end/utils.rs: detect_zones_loop", "src/resolver/back_end/trace.rs: add_sub_trace"]}
{"id": "C92", "title": "The name server program does what its configuration and files say", "statement": "Started with the path of a configuration that is accepted, and zone files that are well formed, the name server program runs, and sends to every query exactly the reply due: a refusal for names outside its zone; for names in a delegated sub zone the NS records of the first such sub zone and the addresses it has for them; otherwise with authority the records asked for, else the alias, else NXDOMAIN with the SOA; over TCP all of it, over UDP as much as fits into 512 bytes. In all other cases it exits with code 1. The resolver program runs exactly on accepted configurations, with the limits configured.", "quantifier": "all command lines, configurations, zone files with includes, queries over both transports, debug and release builds", "why_tests_cant": "composes configuration, loading, decoding, answering, encoding and truncation for all files and queries", "anchors": ["src/bin/nameserver.rs: main, process_zones_confs", "src/bin/resolver.rs: main", "src/nameserver/conf.rs: Conf::validate", "src/resolver/conf.rs: Conf::validate", "src/nameserver/handler.rs: handle_dns_request", "src/nameserver/zones/parser.rs: parse_zone_files"]}
{"id": "C93", "title": "Any number of lookups at once", "statement": "The resolver looks up many names at once, in threads that share one cache, while another thread cleans it. Whatever the interleaving of their accesses: at every moment the cache is in order (entries under the key they belong to, never expired at the time of saving, records of one type and TTL); every lookup behaves as one that is alone with a cache that changes only in ways that keep it in order, so all that is proved about single lookups holds for each; its answer is an alias chain from the name asked to records of the type asked; it sends a number of packets bounded by its own limits; it never waits for another lookup, and ends if its thread is not starved; and it does not panic as long as the network does not make it.", "quantifier": "all numbers of lookups, requests coming in at any time, interleavings of cache accesses, cleanings, replies and time outs", "why_tests_cant": "quantifies over all schedules of an unbounded number of threads and all replies", "anchors": ["src/resolver/back_end/recursive.rs: Lookup::perform, perform_inner, query_nameservers_iteratively", "src/resolver/back_end/cache.rs: Cache::get_clone, set, clean, start_clean_routine", "src/resolver/handler.rs: handle_request"]}
{"id": "C94", "title": "Many clients at once are told what is there", "statement": "In a healthy domain name system (as in C78: servers of which enough are honest and answer, though packets may be lost, but not as many in a row as the resolver tries), any number of lookups at once, interleaved in any way and with the cleaning of the cache in between, tell every client exactly what is there: at every moment all that is in the shared cache is true, so no lookup can be misled by what another has saved or has only begun to save; and every lookup whose thread is not starved ends and returns the aliases and records there are, or that there are none. (Excepted are questions of type CNAME: there one lookup can make another deny the record.)", "quantifier": "all numbers of lookups, requests at any time, interleavings, cleanings, ids drawn, losses within the limit, healthy domain name systems", "why_tests_cant": "quantifies over all schedules of an unbounded number of threads and all domain name systems that are healthy", "anchors": ["src/resolver/back_end/recursive.rs: Lookup::perform, perform_inner, query_nameservers_iteratively, handle_cname", "src/resolver/back_end/cache.rs: Cache::get_clone, set, clean", "src/resolver/back_end/utils.rs: save_records_in_cache, save_nss_in_cache"]}
{"id": "C95", "title": "Many clients at once are sent the right replies", "statement": "In a healthy domain name system, any number of clients may query the resolver at once, over UDP and TCP, by queries as in C86 (of types other than CNAME). Whatever the interleaving of their lookups, each client whose lookup is not starved is sent a reply, which mirrors its query and tells exactly what is there: the aliases in order and the records, or NXDOMAIN if there are none; over TCP in full, over UDP as much as fits into 512 bytes. Zones served by this project's name server from well-formed files qualify as part of such a system.", "quantifier": "all numbers of clients, transports, query packets, interleavings, cleanings, losses within the limit, healthy domain name systems, debug and release builds, log levels", "why_tests_cant": "composes decoding, concurrent lookups, cache, reply building and encoding for all schedules and all query packets", "anchors": ["src/resolver/handler.rs: handle_request, handle_query", "src/resolver/back_end/recursive.rs: Lookup::perform", "src/resolver/back_end/cache.rs: Cache::get_clone, set, clean", "src/shared/net/udp_server.rs: UdpTransport", "src/shared/net/tcp_server.rs: TcpTransport"]}
{"id": "C96", "title": "Zone file errors name the file and line that are wrong", "statement": "When loading the zone files fails with a message that names a file and a line, that file is one of the files read, the lines of it before the named one load without error, and the named line is wrong whatever follows it: no continuation of the file can be loaded. Messages that name only a file, the SOA record or a zone are about a file that cannot be opened, the first record of the main file, or a zone all of whose files load but which breaks a rule as a whole.", "quantifier": "all zone files, included files and files of sub-zones, however many lines, comments, multi-line entries, nested inclusions, and all continuations of them", "why_tests_cant": "the line counter runs ahead of what is parsed (look-ahead, skipped lines, multi-line entries); tests fix a few files and compare no continuations", "anchors": ["src/nameserver/zones/parser_auth.rs: parse_entries, parse_auth_zone_file, parse_included_file", "src/nameserver/zones/parser_sub.rs: parse_entries", "src/nameserver/zones/parser.rs: parse_zone_files", "src/nameserver/zones/tokens.rs: line, next, peek, load_new_line"]}
{"id": "C97", "title": "Nothing is invented, whoever asked", "statement": "Whatever the resolver tells a client rests on the built-in root servers and on datagrams delivered so far. With any number of lookups at once on one cache, in any interleaving: each record in the cache, each record in a reply sent to a client, each address a query is sent to, and each alias or server asked about is, up to its TTL, that of a built-in root server or in a datagram that came back before (to a query some lookup sent, carrying that query's id); a client is told that a name does not exist only if such a datagram, in reply to a query for the end of the alias chain, denied it with authority; as long as nothing has come back nothing is told but the root servers.", "quantifier": "all numbers of lookups, interleavings, cleanings, replies honest or not, losses and time outs, requests of clients over both transports, debug and release builds", "why_tests_cant": "quantifies over all schedules and all histories of deliveries: it says where information can come from, not what is in a given run", "anchors": ["src/resolver/back_end/recursive.rs: Lookup::perform, perform_inner, query_nameserver", "src/resolver/back_end/cache.rs: Cache::get_clone, set", "src/resolver/back_end/utils.rs: save_records_in_cache, save_nss_in_cache", "src/resolver/handler.rs: handle_request, handle_query"]}
{"id": "C98", "title": "While the resolver serves, everyone is served", "statement": "Of the running resolver - a UDP and a TCP server, each with its pool of worker threads, all lookups sharing one cache - any number of clients may ask at any times. No worker ever dies or ends and no request makes one panic; every reply sent to a client who asked a question of the domain name system tells him what its zones contain, as a message of the right framing with his id and question; no request is sent two replies; and if nothing is starved, every request received is taken from the queue and dealt with, and every such client is sent his reply, however few the workers and however many requests wait.", "quantifier": "all numbers of workers, requests of both transports (queries, and bytes that are no query but do not make the handler panic), and interleavings of arrivals, the pools' locks and queues, lookups, cache accesses, packets, losses and cleanings", "why_tests_cant": "is about infinite schedules of threads and clients: liveness and the absence of dead workers cannot be read off finite runs", "anchors": ["src/shared/net/udp_server.rs: start_udp_server", "src/shared/net/tcp_server.rs: start_tcp_server", "src/shared/thread_pool.rs: ThreadPool::execute, Worker::new", "src/resolver/handler.rs: handle_request, handle_query", "src/resolver/back_end/recursive.rs: Lookup::perform", "src/resolver/back_end/cache.rs: Cache"]}
