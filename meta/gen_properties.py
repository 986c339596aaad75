#!/usr/bin/env python3
"""Writes /verif/properties.jsonl (one JSON object per line)."""
import json, os
P = []
def p(id, title, statement, quantifier, why, anchors):
    P.append(dict(id=id, title=title, statement=statement, quantifier=quantifier,
                  why_tests_cant=why, anchors=anchors))
BUF="src/shared/buffer/buffer.rs"; NAME="src/shared/dns/name.rs"; REC="src/shared/dns/records.rs"
MSG="src/shared/dns/message.rs"; HDR="src/shared/dns/header.rs"; QST="src/shared/dns/questions.rs"
UTL="src/shared/dns/utils.rs"; TYP="src/shared/dns/types.rs"; CLS="src/shared/dns/class.rs"
NSH="src/nameserver/handler.rs"; TOK="src/nameserver/zones/tokens.rs"; PA="src/nameserver/zones/parser_auth.rs"
PS="src/nameserver/zones/parser_sub.rs"; PZ="src/nameserver/zones/parser.rs"; PU="src/nameserver/zones/utils.rs"
REV="src/resolver/back_end/recursive.rs"; REQ="src/resolver/back_end/requests.rs"; RUT="src/resolver/back_end/utils.rs"
CAC="src/resolver/back_end/cache.rs"; TRC="src/resolver/back_end/trace.rs"; RSH="src/resolver/handler.rs"
UDP="src/shared/net/udp_server.rs"; TCP="src/shared/net/tcp_server.rs"; POOL="src/shared/thread_pool.rs"
SETUP="src/shared/net/setup.rs"; NCONF="src/nameserver/conf.rs"; RCONF="src/resolver/conf.rs"

# ---------------------------------------------------------------- bit buffer
p("C01","BitsBuf behaves as a bit string with two cursors",
  "Starting from an empty buffer or from raw bytes, any sequence of bit/byte reads, bit/byte writes, cursor moves and truncations returns exactly the values (and panics at exactly the calls) of an abstract bit string with a read and a write cursor; the bytes finally extracted are that bit string packed most significant bit first and zero padded.",
  "all initial byte strings, all finite sequences of public BitsBuf calls with all arguments",
  "unit tests sample a few op sequences; offsets, partial overwrites and truncation interact in unboundedly many ways",
  [BUF+": BitsBuf::{new,from_raw_bytes,truncate,set_read_pos,set_write_pos,read_bits,read_u8,read_u16,read_u32,read_bytes_vec,write_bits,write_u8,write_u16,write_u32,write_bytes,into_vec}"])
p("C02","What is written at the end of a buffer is what is read back",
  "Any sequence of typed values (n-bit fields, u8, u16, u32, byte strings) written to an empty buffer and then read in the same order with the same types gives back the same values, whatever the alignment.",
  "all finite lists of typed values","round trips over all alignments and all lengths cannot be enumerated",
  [BUF+": write_bits/write_u16/write_u32/write_bytes, read_bits/read_u16/read_u32/read_bytes_vec"])
p("C03","Reads past the end return None and change nothing",
  "A read that asks for more bits than remain returns None, leaves the read position and the content untouched, and no read ever changes the content; a read that fits always succeeds and advances by exactly the bits asked.",
  "all reachable buffers, all read sizes","holds for every buffer state reachable by any history",
  [BUF+": read_bits/read_u16/read_u32/read_bytes_vec"])
# ---------------------------------------------------------------- names
p("C04","Grammar of accepted domain names",
  "A string is accepted as a name exactly when it is the root '.', or it has at most 255 bytes and is a non-empty sequence of dot-terminated labels, each non-empty, made of ASCII letters, digits and hyphens and neither starting nor ending with a hyphen.",
  "all byte strings","an equivalence over all strings",
  [NAME+": Name::from_string, validate_name, validate_label"])
p("C05","Name wire round trip",
  "Encoding an accepted name other than the root whose labels are at most 63 bytes long, placing it anywhere in a packet and decoding at that place returns the same name and leaves the reader just after it.",
  "all accepted non-root names with labels of at most 63 bytes, all packets containing the encoding at any offset",
  "all names at all offsets", [NAME+": Name::to_bytes, Name::from_bytes"])
p("C06","Every accepted name survives the wire",
  "Every name the library accepts from a string can be encoded and decoded back to itself (including the root and names with long labels).",
  "all accepted names","a universal claim; it fails for names no test uses",
  [NAME+": validate_label (no 63 byte check), Name::to_bytes (root encodes as two zero bytes)"])
p("C07","Names decoded from packets are accepted names",
  "Whatever the packet, a name returned by the decoder is one that Name::from_string accepts, every label is at most 63 bytes, and the read position afterwards is inside the packet, byte aligned when it started aligned, and never before its starting point.",
  "all packets, all starting offsets","adversarial inputs cannot be enumerated",
  [NAME+": Name::from_bytes, validate_name"])
p("C08","Name decoding terminates on every packet",
  "Decoding a name always finishes: it follows at most 16 compression pointers and reads at most 255 bytes of labels, even on packets whose pointers form cycles.",
  "all packets, all starting offsets","pointer cycles of all shapes",
  [NAME+": Name::from_bytes (MAX_REDIR)"])
p("C09","Decoded names are the ones RFC 1035 compression denotes",
  "If decoding succeeds, the result is the sequence of labels obtained by following labels and compression pointers from that offset as RFC 1035 4.1.4 says; conversely every well-formed compressed name that needs at most 16 pointers (with offsets below 8192) and has at most 255 characters is decoded to exactly those labels.",
  "all packets and offsets","soundness and completeness against a declarative wire relation",
  [NAME+": Name::from_bytes"])
p("C10","Decoding a name never panics",
  "Decoding a name from arbitrary received bytes returns a name or an error and never panics.",
  "all packets, all offsets, both build profiles","adversarial inputs",
  [NAME+": Name::from_bytes (set_read_pos on an unchecked pointer, jump_pos * 8)", BUF+": set_read_pos"])
p("C11","Zone membership is label-suffix containment",
  "For non-root zones, a name is reported in a zone exactly when the zone's labels are a suffix of the name's labels; membership is reflexive and transitive, and is never decided by a partial label match.",
  "all pairs of accepted names","all pairs of names",
  [NAME+": Name::is_in_zone, is_in_zone_root, is_only_in_auth_zone"])
p("C12","Every name is in the root zone",
  "The root zone contains every name.","all accepted names","universal over names",
  [NAME+": Name::is_in_zone"])
p("C13","Names are compared ignoring ASCII case",
  "Two names differing only in letter case denote the same node for zone membership and for lookups (RFC 1034 3.1).",
  "all pairs of names equal up to case","universal over names",
  [NAME+": derived PartialEq, is_in_zone", NSH+": handle_auth_zone"])
# ---------------------------------------------------------------- codec
p("C14","Header wire format",
  "A header with the standard op code is encoded as exactly the 12 bytes of RFC 1035 4.1.1, and decoding any 12+ byte string with known op and response codes yields the fields at those positions; decode(encode h) = h for every header with z < 8.",
  "all headers, all byte strings","all 2^96 headers",
  [HDR+": Header::encode_to_buf, Header::decode_from_buf, Header::decode_from_bytes"])
p("C15","Question and record round trip",
  "Every question with a non-root name, and every A, NS, CNAME, SOA, PTR, HINFO, MX and port-less WKS record over non-root names with labels of at most 63 bytes, is decoded back unchanged (with its true RDATA length) from its encoding, consuming exactly the encoded bytes.",
  "all such records and questions, any bytes before and after","all values of all fields",
  [QST+": Question::{encode_to_buf,decode_from_buf}", REC+": Record::{encode_to_buf,decode_from_buf}"])
p("C16","TXT records round trip",
  "A TXT record that is encoded can be decoded back to the same texts.",
  "all TXT records","universal over texts",
  [REC+": decode_txt_data (set_read_pos(pos - 1)), encode_txt_data"])
p("C17","WKS records round trip and decode safely",
  "A WKS record with ports can be encoded and decoded back, and decoding any received WKS record returns.",
  "all WKS records / all packets carrying one","universal over ports",
  [REC+": decode_wks_data, encode_wks_data, parse_wks_ports"])
p("C18","RDLENGTH is enforced",
  "A name-bearing or HINFO record is only accepted when its declared RDLENGTH equals the number of bytes its data occupies.",
  "all packets, both build profiles","all lengths including those that overflow 16-bit arithmetic",
  [REC+": decode_{a,ns,cname,soa,ptr,hinfo,mx}_data"])
p("C19","Message round trip",
  "Every message with matching section counts, op code STD and round-trippable questions and records is decoded back unchanged from its encoding.",
  "all such messages of any size","all messages",
  [MSG+": Message::{encode_to_bytes,decode_from_bytes}"])
p("C20","Only supported features enter the system",
  "A successfully decoded message has op code STD, class IN everywhere, question types that are supported for questions and only supported record types, valid names, and no more entries per section than its header announces.",
  "all byte strings","adversarial inputs", [MSG+": Message::decode_from_bytes", TYP, CLS, HDR+": is_supported"])
p("C21","Unknown record types are skipped exactly",
  "A record of unknown type with any owner, class, TTL and data is skipped consuming exactly its own bytes: decoding a section in which such records are interleaved yields the same records as decoding the section without them.",
  "all sections, all unknown types, all positions","all interleavings",
  [REC+": decode_record_type", MSG+": decode_from_bytes"])
p("C22","Decoding a packet never panics or hangs",
  "Decoding arbitrary received bytes always returns a message or an error.",
  "all byte strings, both build profiles","adversarial inputs",
  [MSG+": Message::decode_from_bytes", REC+": decode_wks_data (unwrap, endless loop)", NAME+": from_bytes"])
p("C23","UDP encoding fits 512 bytes",
  "The truncating encoder never returns more than 512 bytes.",
  "all messages","all sizes around the boundary",
  [MSG+": Message::encode_to_bytes_trunc"])
p("C24","Truncation keeps a decodable prefix and says so",
  "The truncating encoder returns the header followed by a maximal prefix of the entries (in section order) that fits in 512 bytes; the counts in the header equal the entries kept; the TC flag is set when an entry was dropped and otherwise is the one given; every other header field is unchanged; and for round-trippable messages the bytes decode to exactly that prefix.",
  "all messages with consistent counts","boundary behaviour for all entry sizes",
  [MSG+": Message::encode_to_bytes_trunc"])
p("C25","Short messages are not altered by the UDP encoder",
  "If the full encoding has at most 512 bytes the truncating encoder returns exactly the full encoding.",
  "all messages with consistent counts","all sizes", [MSG+": encode_to_bytes_trunc, encode_to_bytes"])
p("C26","Numeric and textual code tables are inverse",
  "Type, class, op code and response code numbers convert to and from their enums without loss, unknown numbers are reported unchanged, and type names in text convert to and from their enum without loss.",
  "all 16-bit numbers / all enum values / all strings","whole tables including the unknown range",
  [TYP+": from_num,to_num,from_str,to_str", CLS+": from_num,to_num,from_string", HDR+": OpCode, RespCode"])
p("C27","Character strings",
  "A string of at most 255 bytes is encoded as its length followed by its bytes and decoded back; longer ones are refused by the encoder; the decoder returns only valid UTF-8 and refuses everything else.",
  "all strings, all byte strings","all strings", [UTL+": decode_character_string, encode_character_string"])
# ---------------------------------------------------------------- nameserver
p("C28","Replies mirror the request",
  "Every message the nameserver produces for a decoded request carries the request's id, op code, and recursion-desired flag, has the response flag set, recursion-available clear, Z zero, and repeats the request's questions.",
  "all zones, all requests","all requests and zones", [NSH+": resp_header_from_req_header, handle_*"])
p("C29","Names outside the zone are refused",
  "A valid query for a name outside the authoritative zone gets REFUSED with empty answer, authority and additional sections.",
  "all zones, all valid queries","all names", [NSH+": handle_query, handle_err"])
p("C30","Names in a sub zone are delegated",
  "A valid query for a name inside a delegated sub zone is never answered from authoritative data: the reply is a non-authoritative NOERROR with no answers, whose authority section is exactly that sub zone's NS records and whose additional section is exactly the A records the sub zones hold for those servers.",
  "all loaded zones, all valid queries","all names and zones", [NSH+": handle_subzone, search_a_additionals_for_subzone_ns"])
p("C31","Authoritative answers are exactly the zone's records",
  "A valid query for a name in the authoritative zone and no sub zone returns, authoritatively, exactly the zone's records with that owner and type in file order, or, if there are none, exactly the owner's CNAME records.",
  "all loaded zones, all valid queries","all names/types", [NSH+": handle_auth_zone", PZ+": Zone::get"])
p("C32","Negative answers carry the SOA",
  "If the authoritative zone has neither records of that type nor a CNAME at the name, the reply is authoritative NXDOMAIN with no answers and the zone's SOA as only authority record.",
  "all loaded zones, all valid queries","all names/types", [NSH+": handle_auth_zone, handle_nx_err"])
p("C33","NXDOMAIN means the name does not exist",
  "NXDOMAIN is only returned for names that own no record of any type in the zone.",
  "all loaded zones, all valid queries","all names/types", [NSH+": handle_auth_zone"])
p("C34","Malformed requests get an error reply",
  "A request whose header is readable but which is malformed or uses unsupported features gets a FORMERR or NOTIMP reply.",
  "all byte strings","adversarial inputs", [NSH+": handle_decode_err", RSH+": handle_decode_err", MSG+": encode_to_bytes_trunc"])
p("C35","Unreadable requests are dropped",
  "A request whose header cannot be decoded causes no reply, no panic and no state change; so does a TCP stream that ends before the announced length.",
  "all byte strings","adversarial inputs", [NSH+": handle_dns_request", UDP+": UdpRequest::read", TCP+": TcpRequest::read"])
p("C36","A query of unknown type is answered",
  "A well-formed query for a record type the server does not know is answered with an error code rather than crashing the worker.",
  "all well-formed queries with unknown type","all type numbers", [NSH+": validate_dns_request, handle_err", RSH+": handle_request (questions[0])"])
p("C37","A loaded zone never makes the server panic on a valid query",
  "For every zone the loader accepts and every valid query, computing the reply and encoding it for UDP or TCP does not panic.",
  "all accepted zone files, all valid queries","combines loader invariants with handler unwraps",
  [NSH+": handle_auth_zone/handle_subzone unwraps", UDP+": reply unwrap", TCP+": reply unwrap", PU+": parse_char_string (no length check)"])
p("C38","TCP framing is exact",
  "On TCP the reply is preceded by its exact length as two big-endian bytes, and a request is read as exactly the announced number of bytes.",
  "all replies, all streams","all sizes including those above 65535", [TCP+": TcpResponse::reply, TcpRequest::read"])
# ---------------------------------------------------------------- zones
p("C39","Zone storage returns what was inserted",
  "After any sequence of insertions and merges of included files, looking up an owner and type returns exactly the inserted records with that owner and type in insertion order (None if none), independently of hash iteration order.",
  "all operation sequences, all iteration orders","all histories and hash orders", [PZ+": Zone::{insert,get,get_all_of_type,extend}"])
p("C40","Loaded authoritative records respect the zone",
  "Every record of a loaded authoritative zone has class IN, a supported type, an owner inside the zone, a valid owner name and valid names in its data, and a TTL not below the SOA minimum; names written explicitly as owners are never inside a configured sub zone.",
  "all zone files, include trees and configurations","all files", [PA+": parse_record, parse_origin, parse_include, parse_starting_soa_record"])
p("C41","Exactly one SOA, at the apex; NS at the apex",
  "A loaded authoritative zone holds exactly one SOA record, owned by the zone apex, at least one NS record, and all its NS records are owned by the apex.",
  "all zone files","all files", [PA+": parse_starting_soa_record, parse_record", PZ+": validate_auth_zone"])
p("C42","Loaded sub zones hold only NS and glue",
  "Every record of a loaded sub zone is an NS record at its apex or an A record inside it, of class IN and TTL at least the configured minimum; there is at least one NS record; every name server lying in a loaded sub zone and in the authoritative zone has an A record in that sub zone; every A record's owner is the target of an NS record of some loaded sub zone.",
  "all sub zone files and configurations","all files", [PS+": parse_record", PZ+": validate_subzone, search_glue_records, search_referred_ns"])
p("C43","Loading a zone file terminates without panicking",
  "Loading any zone file finishes with a zone or an error; it neither panics nor runs forever.",
  "all file contents and include graphs","adversarial text", [TOK+": process_string_or_number, parse_escape", PA+": parse_included_file, parse_txt_record"])
p("C44","Tokenizing is total on plain files",
  "On files without backslashes whose only white space characters are space and tab the tokenizer never panics, always makes progress, and reaches the end of the file after at most as many tokens as there are characters plus lines.",
  "all such files","all files", [TOK+": Tokenizer::next"])
p("C45","Comments and blank lines are invisible",
  "Inserting or deleting blank lines and comment-only lines, anywhere (also inside a parenthesised group) never changes the sequence of tokens.",
  "all files and positions","all files", [TOK+": load_new_line, process_comment"])
p("C46","Included files do not leak parsing state",
  "After an $INCLUDE the including file continues with the origin and default TTL it had before; the included file starts with the stated (or current) origin and the current default TTL.",
  "all files","all include trees", [PA+": parse_included_file, parse_entries"])
p("C47","Omitted TTLs inherit the previous record's",
  "A record without TTL gets the TTL of the record before it in the same file, or the configured starting TTL (at the start of an included file, the includer's current TTL).",
  "all files","all files", [PA+": parse_record, parse_entries", PS+": parse_record, parse_entries"])
# ---------------------------------------------------------------- cache
p("C48","The cache is a map with expiry",
  "For every history of sets, gets, removes and cleanings by any number of threads, a get returns exactly the value of the latest set of that key if it has not expired and was not removed since, and nothing otherwise.",
  "all histories, all non-decreasing clock readings, all thread interleavings","all histories and schedules", [CAC+": Cache::{set,get_clone,on_found,remove,clean}"])
p("C49","Cleaning is unobservable and complete",
  "Cleaning never changes the result of any later call, and afterwards no entry expired at that moment is stored.",
  "all cache states and histories","all histories", [CAC+": Cache::clean"])
p("C50","Cached records never outlive their TTL and report what is left of it",
  "Records read back from the cache carry as TTL the whole seconds left, never more than the TTL they were stored with, and are never returned at or after expiry.",
  "all stores, all read times, all interleavings with other threads","timing and schedules", [REV+": search_records_in_cache, save_records_in_cache"])
p("C51","Cache entries belong to their key",
  "Every record stored under a (name, type) key has that type, and all records under a key share one TTL, the lowest of the group.",
  "all lookup histories","all upstream behaviours", [REV+": save_records_in_cache, save_nss_in_cache"])
p("C52","Cache entries have the owner of their key",
  "Every record returned from the cache for a name is owned by that name.",
  "all upstream behaviours","all upstream behaviours", [REV+": save_nss_in_cache (keyed by the first NS record only)"])
# ---------------------------------------------------------------- resolver
p("C53","Extraction splits a section exactly",
  "Extracting the records of a type and owner from a section returns exactly those records and leaves exactly the others (as multisets), whatever their positions.",
  "all record lists","all positions", [RUT+": extract_records, extract_record"])
p("C54","Name servers with addresses are tried first",
  "Sorting name servers keeps exactly the same servers, puts all those with an address before all those without, and keeps the relative order inside each group.",
  "all server lists","all lists", [RUT+": sort_nameservers"])
p("C55","Domain hierarchy",
  "The zones searched for cached name servers are exactly the queried name and its ancestors (root excluded) from the most specific to the least, and each is an accepted name.",
  "all accepted names","all names", [REV+": generate_domain_hierarchy, search_nss_in_cache_with_trace"])
p("C56","Lookups terminate whatever upstream servers answer",
  "Every lookup finishes with an answer or an error for every behaviour of the network, as long as decoding each received packet itself returns.",
  "all network behaviours, cache contents, interleavings and configurations","adversarial upstream behaviour over unbounded time", [REV+": perform_inner, query_nameservers_iteratively, resolve_ns_subquery", RUT+": detect_zones_loop", REQ+": is_nameserver_authority_a_subzone"])
p("C57","Answers form a CNAME chain from the question",
  "The answer section of a successful lookup is a chain of CNAME records starting at the queried name, each pointing at the next one's owner, without repetition of owners, followed by records of the queried type owned by the last target; its length never exceeds the configured maximum.",
  "all network behaviours and well-keyed caches","all upstream behaviours", [REV+": perform_inner, handle_cname", RUT+": detect_cname_loops"])
p("C58","Delegations only descend",
  "The resolver only follows a delegation to a zone that encloses the searched name and is strictly below the zone of the server that sent it.",
  "all responses","adversarial upstream", [REQ+": is_nameserver_authoritative_over_node, is_nameserver_authority_a_subzone"])
p("C59","Upstream work is bounded by the configuration",
  "For one zone cut no more than max_ns_queried servers are asked, each at most max_ns_retries times; a lookup therefore sends a bounded number of packets that depends on the configuration only.",
  "all network behaviours","adversarial upstream", [REV+": query_nameservers_iteratively", REQ+": send_query_with_retries"])
p("C60","Off-path and off-topic data is not believed",
  "A response is only used if it carries the id of the query sent, and data in it is only cached or used for names the answering server may speak for.",
  "all responses","adversarial upstream", [REQ+": send_query, extract_next_nss_for_subzone", REV+": save_nss_in_cache"])
p("C61","Lookups never panic",
  "No upstream behaviour makes a lookup panic.",
  "all network behaviours","adversarial upstream", [REQ+": send_udp_packet (first().unwrap())", REV+": save_records_in_cache asserts"])
p("C62","No trace when tracing is off",
  "If tracing is disabled the trace returned by a lookup is empty.",
  "all lookups","all behaviours", [TRC+": add_sub_trace", REV+": perform"])
p("C63","Resolver replies mirror the request",
  "Every message the resolver produces carries the request's id, op code and recursion-desired flag, is a response with recursion available, repeats the question, and its counts equal its sections; failures become SERVFAIL, missing names NXDOMAIN.",
  "all requests and lookup outcomes","all requests", [RSH+": handle_query, handle_err, resp_header_from_req_header"])
# ---------------------------------------------------------------- servers
p("C64","Thread pool runs each job at most once, in order",
  "Under every schedule each submitted job is started at most once, jobs are started in submission order, and when no job panics dropping the pool returns only after every submitted job has finished.",
  "all schedules, all job lists, all pool sizes","all interleavings", [POOL+": ThreadPool::{new,execute,drop}, Worker::new"])
p("C65","The server keeps serving after any request",
  "However many requests arrive and whatever they contain, later valid requests are still served.",
  "all request sequences and schedules","all histories", [POOL+": Worker::new (no catch_unwind)", UDP+": start_udp_server", TCP+": start_tcp_server"])
p("C66","Accepted configurations are usable",
  "A configuration accepted at start-up has the thread counts, timeouts, limits and zone names the servers need to run.",
  "all configurations","all combinations", [NCONF+": Conf::validate", RCONF+": Conf::validate", TCP+": setup_connection"])
# ---------------------------------------------------------------- added while modelling
p("C67","The cache keeps working after any call",
  "Whatever calls were made before, including on_found with a callback that panics, later calls on the cache return and do not panic.",
  "all histories of calls, all callbacks","all histories", [CAC+": on_found, lock().unwrap()"])
p("C68","Malformed requests to the resolver get an error reply",
  "A request whose header can be read but which cannot be decoded, or which is no query, is answered with FORMERR or NOTIMP; only packets without a readable header are dropped.",
  "all packets on both transports","all byte strings", [RSH+": handle_request, handle_decode_err, handle_err"])
p("C69","Queries of unknown types get a reply from the resolver",
  "A well-formed query whose type or class the resolver does not know is answered with an error reply.",
  "all such queries, on both transports","all packets", [RSH+": handle_request (questions[0]), validate_dns_request"])
p("C70","Every valid query gets a reply from the resolver",
  "For every valid query, whatever the upstream servers do, the resolver sends a reply that says what the lookup found: the records, NXDOMAIN or SERVFAIL.",
  "all queries, upstream behaviours, cache contents","all histories", [RSH+": handle_query", REV+": perform", TCP+": TcpResponse::reply", UDP+": UdpResponse::reply"])
p("C71","Dropping a thread pool returns",
  "Under every schedule a drop of the pool, once called, returns after a bounded number of steps and then every submitted job has finished, whatever the jobs did.",
  "all schedules, all jobs including panicking ones, all pool sizes","all interleavings", [POOL+": Drop for ThreadPool (join().unwrap())"])
p("C72","Failure of one server shuts the other down cleanly",
  "start_servers keeps both servers running until one of them ends; then the other is torn down and start_servers returns, with both servers ended.",
  "all schedules of the three threads, all request arrivals","all interleavings", ["src/shared/net/setup.rs: start_servers, wake_up_servers"])
p("C73","All configured tries are made",
  "A request to an upstream server is repeated until a response comes in that decodes and carries the id sent, and given up only after exactly the configured number of tries; the first such response is the one used.",
  "all packet losses and damages, all retry limits","all loss patterns", [REQ+": send_query_with_retries, perform_request", REV+": perform_request_with_trace"])
p("C74","One working server is enough",
  "If one of the servers with known addresses that are asked for a zone answers helpfully, within the configured tries, then asking that zone does not fail, whatever the other servers do.",
  "all server behaviours, orders, limits","all combinations of failures", [REV+": query_nameservers_iteratively", RUT+": sort_nameservers"])
p("C75","Upstream queries say what is asked",
  "Every packet sent upstream is a standard query (recursion not desired, class IN) with exactly one question: the name and type looked up, the target of an alias of it, or the address of a name server; and it goes to an address from an address record the lookup got.",
  "all lookups, all upstream behaviours","all histories", [REQ+": build_dns_request, send_query", REV+": perform_inner, resolve_ns_subquery"])
p("C76","Answers are cached",
  "A lookup that succeeded, repeated while the records it returned are still valid, succeeds again without sending anything upstream; if no alias was involved it returns the same records (with their TTLs counted down).",
  "all lookups, all upstream behaviours, all aliases, all times before the expiry","two successive runs are compared, for all histories", [CAC+": ResolverCache", REV+": perform_inner, save_records, search_records_cached"])
p("C77","Names are said not to exist only on authority",
  "A lookup ends with NXDOMAIN only if, during that lookup, a response to a query for the end of the alias chain came in that has the authority bit and says so.",
  "all lookups, all upstream behaviours","all histories", [REQ+": perform_request", REV+": perform_inner"])
p("C78","In a healthy DNS, lookups find what is there",
  "If the root servers and the servers of all zones respond (to one of the configured number of tries) and tell the truth, but for fewer per zone than the resolver is configured to try, a lookup returns the aliases that lead from the name, in order, and then the records of the type at their end; or that there are none. This holds for any number of lookups in any order, whatever true records earlier lookups and other threads have cached.",
  "all contents of the DNS, all honest and responsive servers, all questions, all sequences of lookups, all true caches","it ranges over whole histories of lookups in all possible domain name systems", [REV+": perform", REQ+": perform_request", CAC+": get, set", RUT+": root_zone_nameservers"])
p("C79","The resolver and the name server of this project understand each other",
  "A question the resolver sends to a name server of this project is understood, and what it reads from the reply is what the zone files of that server say: the records asked for, the alias, the servers of the sub zone with their addresses, that there is nothing, or that the zone is somebody else's.",
  "all zones, all questions, both build profiles on either side","two programs are composed, over all zone contents and questions", [REQ+": perform_request", "src/nameserver/handler.rs: handle_dns_request", UDP+": UdpRequest, UdpResponse"])
p("C80","Tracing changes nothing",
  "Whether and how verbosely lookups are traced makes no difference to their outcome, to the cache, or to what is sent upstream.",
  "all lookups, all upstream behaviours, all tracing settings","two whole runs are compared, for all histories", [TRC+": Tracer", REV+": perform, resolve_ns_subquery", REQ+": perform_request_with_trace"])
p("C81","A zone is loaded exactly when its files are well formed",
  "The server starts with the configured zones if and only if the files exist, can be read, follow the zone file grammar to their end (SOA first, at the apex, class written; owners and origins inside the zone and not delegated; no TTL below the minimum; no other SOA; sub zone files with NS and A records only) and the records form proper zones (NS records at each apex and nowhere else, the glue that is needed and no other). It then serves exactly the records of the files. If loading ends, all other files are refused with an error.",
  "all zone files, included files and configurations with usable zone names","a completeness statement over all files: no set of accepted and refused samples shows it", ["src/nameserver/zones/parser.rs: parse_zone_files, validate_auth_zone, validate_subzone","src/nameserver/zones/parser_auth.rs: parse_auth_zone_file, parse_entries","src/nameserver/zones/parser_sub.rs: parse_sub_zone_file"])
p("C82","Zone file text divides into tokens as the lexical rules say",
  "A zone file is read to its end, yielding a given sequence of tokens, exactly when its text divides into that sequence by the lexical rules: lines of only white space and comments do not count; a semicolon starts a comment; between lines there is an end-of-line token unless a parenthesis is open, and parentheses must match; blanks are runs of white space starting with a space or tab; a word runs to white space, a semicolon or a parenthesis, a quoted string to the closing quote on the same line; a backslash makes the next character ordinary; @ is the origin, unsigned 32-bit decimals are numbers, $ORIGIN and $INCLUDE are directives and every other word starting with $ is an error; text is passed on in UTF-8.",
  "all files, with any characters","unbounded texts: every combination of escapes, quotes, parentheses, comments and characters", ["src/nameserver/zones/tokens.rs: Tokenizer::next, load_new_line, process_directive, process_quoted_string, process_string_or_number"])
p("C83","Traces are printed in full",
  "Printing the trace of a lookup shows everything it recorded, in order, with nested lookups indented by their depth; it never fails, so that logging a trace does not keep a query from being answered.",
  "all traces, of any length and nesting; all lookups, upstream behaviours and log levels","unbounded nesting; all histories", [TRC+": Display for Trace, display_trace_lines", RSH+": handle_query"])
p("C84","A trace tells of every packet sent",
  "With tracing on, the packets a lookup sends, including those of nested lookups, are exactly those its trace tells of, in the same order: for every server asked a line with the name and type asked for, which stands for at least one and at most the configured number of packets, all to one address and all asking that; then (if verbose) the response in full, which really came in in answer to the last of them, and what it means, showing only records it contains, or why there is none.",
  "all lookups, all upstream behaviours, caches and configurations with tracing on","the trace and the packets of all histories are compared", [TRC+": Trace, t_ns_req, t_ns_resp, t_ns_resp_err, t_raw_resp, add_sub_trace", REV+": perform_request_with_trace, resolve_ns_subquery"])
p("C85","What is published with the name server is found by the resolver",
  "Zone files that are well formed and say what there is, loaded by name servers of this project (which may lose packets), are found by the resolver of this project: every lookup of a sequence returns exactly the records written in the files of the zones concerned, following delegations and aliases between zones, whether those zones are served by this project or by other honest servers.",
  "all zone files, delegations and glue, debug and release builds on both sides, loss patterns, caches, sequences of lookups","it composes loading, serving, encoding, decoding and resolving for all zone contents and all lookup histories", [NSH+": handle_dns_request", REV+": Lookup::perform", "src/nameserver/zones/parser.rs: parse_zone_files"])
p("C86","Clients of the resolver are told what there is",
  "In a healthy DNS, every client query (UDP or TCP), one after the other, is answered, from the bytes received to the bytes sent: the reply mirrors the query and carries the aliases in order and exactly the records there are, or NXDOMAIN when there are none. In particular zone files published with this project's name servers reach clients of this project's resolver.",
  "all healthy DNSs, zone files, caches, sequences of client queries over both transports, concurrent lookups","it composes decoding, lookup, caching, reply and encoding over all histories", ["src/resolver/handler.rs: handle_request, handle_query", REV+": Lookup::perform", UDP+": UdpResponse", TCP+": TcpResponse"])
p("C87","Exactly which requests crash the name server",
  "A name server with loaded zones (character strings not over-long) crashes the worker that handles a request exactly in these cases: the decoder panics; the header can be read but the rest not; or questions were skipped (unknown types), and what is left is no query that the zone answers with records, an alias or a referral (over UDP: unless the questions left do not fit into 512 bytes). Nothing makes it hang but the decoder.",
  "all zones, all datagrams and TCP streams, both build profiles",
  "an equivalence over all byte strings and zones",
  [NSH+": handle_dns_request", UDP+": UdpResponse::reply", TCP+": TcpResponse::reply", NSH+": handle_decode_err"])
p("C88","A trace is an account of the lookup",
  "With tracing on, the trace of a lookup tells, in order: each name, whether the cache had its records or an alias, whom there was to ask, each server asked and what came of it, sub-lookups (accounts of their own) before the servers they are for; and the result of a successful lookup can be read off it: the aliases told in order, then the records of the last line.",
  "all lookups, upstream behaviours, cache states",
  "ranges over all executions of a lookup",
  [TRC+": t_* methods", REV+": perform_inner, perform_request_with_trace, search_records_in_cache_with_trace"])
p("C89","Exactly which client requests crash the resolver",
  "Whatever servers the resolver talks to and whatever it has cached, a client's request crashes the worker that handles it exactly in these cases: the decoder panics; the header can be read but the rest not; questions were skipped (unknown types) and (over UDP) those left fit into 512 bytes; or it is a query whose lookup panics, or, in a debug build that logs, ends with a trace nested deeper than 255. It hangs only if the decoder or the lookup does, goes unanswered only if the header cannot be read, and otherwise a reply is sent. What is no query touches neither cache nor network.",
  "all requests over UDP and TCP, all upstream behaviours and cache states, both build profiles",
  "an equivalence over all byte strings, networks and caches",
  [RSH+": handle_request", UDP+": UdpResponse::reply", TCP+": TcpResponse::reply", RSH+": handle_decode_err"])
p("C90","A lookup is determined by the replies it receives",
  "What comes of a lookup (answer, error or panic; cache contents; packets sent; trace) is determined by the cache it started from, the clock readings and ids it drew and what other threads did to the cache while it ran, and the replies to the packets it sent: in any other environment that agrees on these, whatever it does otherwise (replies to other packets, anything before or after), the same comes of it.",
  "all lookups, pairs of environments, cache states",
  "a statement about pairs of executions",
  [REV+": Lookup::perform", REQ+": send_query", REV+": search_records_in_cache"])
p("C91","Lookups are nested no deeper than there are zones",
  "A lookup that needs the address of a name server starts another lookup, which may start another. However servers refer to each other, such lookups are nested at most as deep as the number of different zones in the NS records that were in the cache, that other threads stored, that are built in (the root zone), or that the lookup received; so a bounded number of zones bounds the recursion, and with at most 255 zones the trace is printed and the query answered in debug builds too.",
  "all environments, cache states, questions, configurations, lengths of runs",
  "no configuration value bounds the recursion; the bound must hold for every tree of delegations",
  [REV+": resolve_ns_subquery", RUT+": detect_zones_loop", TRC+": add_sub_trace"])
p("C92","The name server program does what its configuration and files say",
  "Started with the path of a configuration that is accepted, and zone files that are well formed, the name server program runs, and sends to every query exactly the reply due: a refusal for names outside its zone; for names in a delegated sub zone the NS records of the first such sub zone and the addresses it has for them; otherwise with authority the records asked for, else the alias, else NXDOMAIN with the SOA; over TCP all of it, over UDP as much as fits into 512 bytes. In all other cases it exits with code 1. The resolver program runs exactly on accepted configurations, with the limits configured.",
  "all command lines, configurations, zone files with includes, queries over both transports, debug and release builds","composes configuration, loading, decoding, answering, encoding and truncation for all files and queries", ["src/bin/nameserver.rs: main, process_zones_confs", "src/bin/resolver.rs: main", NCONF+": Conf::validate", RCONF+": Conf::validate", NSH+": handle_dns_request", PZ+": parse_zone_files"])
p("C93","Any number of lookups at once",
  "The resolver looks up many names at once, in threads that share one cache, while another thread cleans it. Whatever the interleaving of their accesses: at every moment the cache is in order (entries under the key they belong to, never expired at the time of saving, records of one type and TTL); every lookup behaves as one that is alone with a cache that changes only in ways that keep it in order, so all that is proved about single lookups holds for each; its answer is an alias chain from the name asked to records of the type asked; it sends a number of packets bounded by its own limits; it never waits for another lookup, and ends if its thread is not starved; and it does not panic as long as the network does not make it.",
  "all numbers of lookups, requests coming in at any time, interleavings of cache accesses, cleanings, replies and time outs","quantifies over all schedules of an unbounded number of threads and all replies", [REV+": Lookup::perform, perform_inner, query_nameservers_iteratively", CAC+": Cache::get_clone, set, clean, start_clean_routine", RSH+": handle_request"])
p("C94","Many clients at once are told what is there",
  "In a healthy domain name system (as in C78: servers of which enough are honest and answer, though packets may be lost, but not as many in a row as the resolver tries), any number of lookups at once, interleaved in any way and with the cleaning of the cache in between, tell every client exactly what is there: at every moment all that is in the shared cache is true, so no lookup can be misled by what another has saved or has only begun to save; and every lookup whose thread is not starved ends and returns the aliases and records there are, or that there are none. (Excepted are questions of type CNAME: there one lookup can make another deny the record.)",
  "all numbers of lookups, requests at any time, interleavings, cleanings, ids drawn, losses within the limit, healthy domain name systems","quantifies over all schedules of an unbounded number of threads and all domain name systems that are healthy", [REV+": Lookup::perform, perform_inner, query_nameservers_iteratively, handle_cname", CAC+": Cache::get_clone, set, clean", RUT+": save_records_in_cache, save_nss_in_cache"])
p("C95","Many clients at once are sent the right replies",
  "In a healthy domain name system, any number of clients may query the resolver at once, over UDP and TCP, by queries as in C86 (of types other than CNAME). Whatever the interleaving of their lookups, each client whose lookup is not starved is sent a reply, which mirrors its query and tells exactly what is there: the aliases in order and the records, or NXDOMAIN if there are none; over TCP in full, over UDP as much as fits into 512 bytes. Zones served by this project's name server from well-formed files qualify as part of such a system.",
  "all numbers of clients, transports, query packets, interleavings, cleanings, losses within the limit, healthy domain name systems, debug and release builds, log levels","composes decoding, concurrent lookups, cache, reply building and encoding for all schedules and all query packets", [RSH+": handle_request, handle_query", REV+": Lookup::perform", CAC+": Cache::get_clone, set, clean", UDP+": UdpTransport", TCP+": TcpTransport"])
p("C96","Zone file errors name the file and line that are wrong",
  "When loading the zone files fails with a message that names a file and a line, that file is one of the files read, the lines of it before the named one load without error, and the named line is wrong whatever follows it: no continuation of the file can be loaded. Messages that name only a file, the SOA record or a zone are about a file that cannot be opened, the first record of the main file, or a zone all of whose files load but which breaks a rule as a whole.",
  "all zone files, included files and files of sub-zones, however many lines, comments, multi-line entries, nested inclusions, and all continuations of them","the line counter runs ahead of what is parsed (look-ahead, skipped lines, multi-line entries); tests fix a few files and compare no continuations", [PA+": parse_entries, parse_auth_zone_file, parse_included_file", PS+": parse_entries", PZ+": parse_zone_files", TOK+": line, next, peek, load_new_line"])
p("C97","Nothing is invented, whoever asked",
  "Whatever the resolver tells a client rests on the built-in root servers and on datagrams delivered so far. With any number of lookups at once on one cache, in any interleaving: each record in the cache, each record in a reply sent to a client, each address a query is sent to, and each alias or server asked about is, up to its TTL, that of a built-in root server or in a datagram that came back before (to a query some lookup sent, carrying that query's id); a client is told that a name does not exist only if such a datagram, in reply to a query for the end of the alias chain, denied it with authority; as long as nothing has come back nothing is told but the root servers.",
  "all numbers of lookups, interleavings, cleanings, replies honest or not, losses and time outs, requests of clients over both transports, debug and release builds","quantifies over all schedules and all histories of deliveries: it says where information can come from, not what is in a given run", [REV+": Lookup::perform, perform_inner, query_nameserver", CAC+": Cache::get_clone, set", RUT+": save_records_in_cache, save_nss_in_cache", RSH+": handle_request, handle_query"])
p("C98","While the resolver serves, everyone is served",
  "Of the running resolver - a UDP and a TCP server, each with its pool of worker threads, all lookups sharing one cache - any number of clients may ask at any times. No worker ever dies or ends and no request makes one panic; every reply sent to a client who asked a question of the domain name system tells him what its zones contain, as a message of the right framing with his id and question; no request is sent two replies; and if nothing is starved, every request received is taken from the queue and dealt with, and every such client is sent his reply, however few the workers and however many requests wait.",
  "all numbers of workers, requests of both transports (queries, and bytes that are no query but do not make the handler panic), and interleavings of arrivals, the pools' locks and queues, lookups, cache accesses, packets, losses and cleanings","is about infinite schedules of threads and clients: liveness and the absence of dead workers cannot be read off finite runs", [UDP+": start_udp_server", TCP+": start_tcp_server", POOL+": ThreadPool::execute, Worker::new", RSH+": handle_request, handle_query", REV+": Lookup::perform", CAC+": Cache"])
out = os.path.join(os.path.dirname(__file__), "..", "properties.jsonl")
with open(out, "w") as f:
    for x in P: f.write(json.dumps(x) + "\n")
print(len(P))
