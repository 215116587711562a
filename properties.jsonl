{"id": "C01", "title": "Ring buffer is a byte FIFO", "statement": "A ring buffer that is pushed to, pulled from, flushed and cleared in any order always exposes, through peek and copy, exactly the bytes that were successfully pushed and not yet pulled, in push order. peek returns them as at most two consecutive segments, copy returns a prefix of the requested length (clamped), pull drops a prefix (clamped), and no operation touches memory outside the current buffer.", "quantifier": "every sequence of push/pull/peek/copy/flush/clear operations, all sizes, every pattern of allocation failures", "why_tests_cant": "wrap-around, growth and failure can be combined in unboundedly many ways; a test samples a few histories", "anchors": ["src/shared/shl_ring.c: shl_ring_push, shl_ring_pull, shl_ring_peek, shl_ring_copy, shl_ring_flush, shl_ring_clear, ring_resize, ring_grow", "src/shared/shl_ring.h"]}
{"id": "C02", "title": "Ring buffer push is all-or-nothing", "statement": "A push either appends the whole byte string and reports success, or reports an out-of-memory error and leaves the stored bytes and the buffer size exactly as they were. It fails only when an allocation fails or the requested total cannot be represented. Pushing within the current free space never allocates and never fails.", "quantifier": "every ring state reachable by operations, every byte string, every allocator behaviour", "why_tests_cant": "allocation failures at every growth point cannot be enumerated by tests", "anchors": ["src/shared/shl_ring.c: shl_ring_push, ring_grow, ring_resize"]}
{"id": "C03", "title": "Power-of-two rounding", "statement": "Rounding a size up to a power of two returns the least power of two that is not smaller than the argument, for every argument from 1 to 2^63.", "quantifier": "every 64-bit argument in 1..2^63", "why_tests_cant": "2^63 inputs; edge behaviour at the top of the range", "anchors": ["src/shared/shl_macro.h: SHL_ALIGN_POWER2"]}
{"id": "C04", "title": "Power-of-two rounding is total as documented", "statement": "Rounding a size up to a power of two is defined for every 64-bit argument: 0 rounds to 0 and a value whose rounding does not fit in 64 bits yields 0, as the comment next to it promises; no argument triggers undefined behaviour.", "quantifier": "every 64-bit argument", "why_tests_cant": "the offending inputs (0 and values above 2^63) produce machine dependent results that a test on one machine may not notice", "anchors": ["src/shared/shl_macro.h: SHL_ALIGN_POWER2"]}
{"id": "C05", "title": "Strict number parser: exact value of a maximal digit run", "statement": "Parsing an unsigned number from a byte string with an explicit or auto-detected base consumes exactly the longest run of valid digits after an optional base prefix, reports where it stopped, and when the mathematical value of that run fits in 64 bits returns that value with success. An invalid base is an error. (The claim that an empty digit run is an error was split off as C47.)", "quantifier": "every byte string, every length limit, every base argument", "why_tests_cant": "infinitely many strings; off-by-one and prefix corner cases", "anchors": ["src/shared/shl_util.c: shl_atoi_ulln, shl_ctoi, skip_base"]}
{"id": "C06", "title": "Strict number parser: overflow is always reported", "statement": "Whenever the digit run denotes a number that does not fit in 64 bits the parser reports a range error instead of success.", "quantifier": "every byte string whose digit run denotes a value of at least 2^64", "why_tests_cant": "only a narrow band of inputs just above 2^64 misbehaves", "anchors": ["src/shared/shl_util.c: shl_atoi_ulln"]}
{"id": "C07", "title": "Narrow number parsers never truncate", "statement": "The unsigned-int and unsigned-long number parsers return a value only if it fits the target type; otherwise they report a range error with the largest value of that type. Whatever they return is what the 64-bit parser returned.", "quantifier": "every byte string, every base, every length", "why_tests_cant": "boundary between the 32-bit and 64-bit ranges over infinitely many spellings", "anchors": ["src/shared/shl_util.c: shl_atoi_uln, shl_atoi_un, shl_atoi_zn"]}
{"id": "C08", "title": "Quoted string join/tokenize round trip", "statement": "Joining a list of strings into one quoted command line and tokenizing that line again gives back the same list, for every list of non-empty strings in which a string that needs no quoting contains no apostrophe.", "quantifier": "every list of strings (any bytes except NUL), any length", "why_tests_cant": "escaping rules interact for unbounded strings", "anchors": ["src/shared/shl_util.c: shl_qstr_join, shl_qstr_tokenize_n, shl__qstr_encode, shl__qstr_length, shl_qstr_decode_n"]}
{"id": "C09", "title": "Quoted string join/tokenize round trip for every list", "statement": "Joining any list of strings into one quoted command line and tokenizing the line again gives back the same list.", "quantifier": "every list of strings, including empty strings and strings with apostrophes", "why_tests_cant": "the counterexamples are rare spellings", "anchors": ["src/shared/shl_util.c: shl_qstr_join, shl_qstr_tokenize_n"]}
{"id": "C10", "title": "String splitting yields exactly the non-empty fields", "statement": "Splitting a string at a set of separator bytes returns, in order, exactly the maximal separator-free non-empty runs of the string.", "quantifier": "every byte string and every separator set", "why_tests_cant": "all positions and multiplicities of separators", "anchors": ["src/shared/shl_util.c: shl_strsplit_n, shl_strsplit"]}
{"id": "C11", "title": "Rate limiter bound", "statement": "A rate limiter with burst b and interval t never admits more than b events in one window of length t counted from the first event of that window, admits every event while fewer than b were admitted in the current window, and starts a new window at the first event later than t after the start of the previous one.", "quantifier": "every burst, every interval, every non-decreasing sequence of event times", "why_tests_cant": "unbounded event histories", "anchors": ["src/shared/shl_util.c: shl_ratelimit_test", "src/shared/shl_util.h: SHL_RATELIMIT_INIT"]}
{"id": "C12", "title": "Intrusive list operations behave like list operations", "statement": "Linking at head or tail, unlinking, testing for emptiness/linkedness and walking an intrusive doubly linked list behave exactly like the corresponding operations on an ordinary sequence; unlinking resets the element so that it reads as not linked and unlinking twice is harmless; other lists in memory are unaffected.", "quantifier": "every heap, every number of lists and elements, every sequence of link/unlink operations", "why_tests_cant": "pointer aliasing over arbitrary histories", "anchors": ["src/shared/shl_dlist.h: shl_dlist_init, shl_dlist_link, shl_dlist_link_tail, shl_dlist_unlink, shl_dlist_empty, shl_dlist_linked"]}
{"id": "C13", "title": "Hash table finds what was inserted and only that", "statement": "After any sequence of insertions and removals, a lookup succeeds exactly when a stored element has an equal key, the element found is one that was inserted and not removed, removal takes out exactly one such element, and the number of stored elements is insertions minus removals.", "quantifier": "every operation sequence (up to 3*2^28 insertions), every hash function, all element pointers with a common highest bit, every allocation failure pattern", "why_tests_cant": "collisions, deleted markers, growth and rehash interact over unbounded histories", "anchors": ["src/shared/shl_htable.c: shl_htable_insert, shl_htable_lookup, shl_htable_remove, htable_add, htable_delval, double_table, rehash_table, update_common"]}
{"id": "C14", "title": "Hash table probing terminates", "statement": "Every lookup, insertion and removal terminates: the table always keeps at least one free slot, whatever was inserted or removed before.", "quantifier": "every operation sequence and every hash function", "why_tests_cant": "an endless probe needs a full table, reached only by particular histories", "anchors": ["src/shared/shl_htable.c: htable_firstval, htable_nextval, htable_add, htable_val"]}
{"id": "C15", "title": "Hash table visits each element exactly once", "statement": "Iterating over a hash table visits every stored element exactly once and nothing else; clearing the table hands every stored element to the callback exactly once and leaves the table empty.", "quantifier": "every table reachable by any operation sequence", "why_tests_cant": "unbounded histories with deleted markers", "anchors": ["src/shared/shl_htable.c: shl_htable_visit, shl_htable_clear, htable_val"]}
{"id": "C16", "title": "RTSP stream parsing does not depend on packet boundaries", "statement": "Feeding a byte stream to the RTSP parser in any division into chunks dispatches the same messages in the same order, reports the same error (if any) at the same message, and leaves the parser ready in the same way as feeding it all at once.", "quantifier": "every byte stream and every way of cutting it into non-empty reads", "why_tests_cant": "exponentially many ways of cutting a stream", "anchors": ["src/shared/rtsp.c: rtsp_parse_data, parser_feed_char_new, parser_feed_char_header, parser_feed_char_header_quote, parser_feed_char_header_nl, parser_feed_char_body, parser_feed_char_data_head, parser_feed_char_data_body"]}
{"id": "C17", "title": "RTSP parser bookkeeping never goes wrong", "statement": "The parser's count of already inspected bytes never exceeds the bytes buffered, so its internal inconsistency error is unreachable and every byte of the stream belongs to exactly one message or is discarded leading white space.", "quantifier": "every byte stream and every way of cutting it into reads", "why_tests_cant": "unbounded input histories", "anchors": ["src/shared/rtsp.c: rtsp_parse_data, parser_submit, parser_submit_data"]}
{"id": "C18", "title": "RTSP message survives the wire", "statement": "A request or reply built with a method/URI or status code/phrase, header lines and body lines, once sealed and fed to the parser of the peer, is received as exactly one message with the same start line, the same headers in the same order (plus the generated Content-Length, Content-Type and CSeq headers) and the same body bytes.", "quantifier": "every message whose tokens contain no line breaks, quotes or control bytes, every number of headers and body lines", "why_tests_cant": "infinitely many messages", "anchors": ["src/shared/rtsp.c: rtsp_message_serialize_common, rtsp_message_seal, rtsp_message_from_head, parser_append_header, parser_submit"]}
{"id": "C19", "title": "RTSP Content-Length is the body length", "statement": "Every sealed request or reply with a body of fewer than 2^32 bytes carries exactly one final value of Content-Length announcing exactly the number of body bytes that follow the blank line on the wire, whatever Content-Length headers the caller added; a message without body carries none unless the caller added one, which is then corrected.", "quantifier": "every message the builder can produce", "why_tests_cant": "all combinations of caller supplied headers and bodies", "anchors": ["src/shared/rtsp.c: rtsp_message_serialize_common"]}
{"id": "C20", "title": "RTSP interleaved data packet round trip", "statement": "A data packet with a channel below 256 and 1 to 65535 payload bytes is received by the peer's parser as one data message with the same channel and payload, and the parser is then ready for the next message.", "quantifier": "every channel below 256, every payload of 1..65535 bytes, every way of cutting the stream into reads", "why_tests_cant": "all payloads and stream divisions", "anchors": ["src/shared/rtsp.c: rtsp_message_serialize_data, parser_feed_char_data_head, parser_feed_char_data_body, parser_submit_data"]}
{"id": "C21", "title": "RTSP interleaved data packets of any size stay in sync", "statement": "A data packet of any payload length including 0 and more than 65535 bytes is received by the peer as one data message with that payload, and bytes following it are not consumed as part of it.", "quantifier": "every payload length", "why_tests_cant": "the failing lengths (0 and above 65535) are unusual", "anchors": ["src/shared/rtsp.c: rtsp_message_serialize_data, parser_feed_char_data_body"]}
{"id": "C22", "title": "Sealed RTSP messages cannot change", "statement": "Once a message is sealed every append, open, close or cookie operation on it is rejected and its serialised bytes and contents stay the same for ever; sealing again succeeds without effect. Sealing with an open header or body is rejected.", "quantifier": "every message and every later sequence of builder operations", "why_tests_cant": "arbitrary later call sequences", "anchors": ["src/shared/rtsp.c: rtsp_message_append_line, rtsp_message_open_header, rtsp_message_close_header, rtsp_message_open_body, rtsp_message_close_body, rtsp_message_seal, rtsp_message_set_cookie"]}
{"id": "C23", "title": "RTSP outgoing messages are written whole and in order", "statement": "Whatever amounts the socket accepts per write, the bytes put on the wire are always a prefix of the concatenation of the serialised messages in the order they were queued; a message is never interleaved with or cut by another one.", "quantifier": "every queue of messages and every schedule of partial writes and would-block results", "why_tests_cant": "schedules of partial writes are unbounded", "anchors": ["src/shared/rtsp.c: rtsp_write_message, rtsp_write, rtsp_link_outgoing, rtsp_send, rtsp_call_async"]}
{"id": "C24", "title": "RTSP call completes at most once", "statement": "For every asynchronous RTSP call the reply callback runs at most once: either with the first matching reply or once with a timeout, never both and never twice, as long as the call is not cancelled while still queued.", "quantifier": "every interleaving of calls, partial writes, replies, timeouts and disconnects", "why_tests_cant": "event interleavings are unbounded", "anchors": ["src/shared/rtsp.c: rtsp_call_async, rtsp_call_reply, rtsp_timer_fn, rtsp_incoming_message"]}
{"id": "C25", "title": "Cancelled RTSP calls never complete", "statement": "After an asynchronous RTSP call has been cancelled through the cookie handed out for it, its reply callback never runs.", "quantifier": "every point of the call's life at which it is cancelled and every later event sequence", "why_tests_cant": "depends on whether the message was already on the wire when cancelled", "anchors": ["src/shared/rtsp.c: rtsp_call_async_cancel, rtsp_drop_message"]}
{"id": "C26", "title": "RTSP calls are accepted without an explicit cookie", "statement": "An asynchronous RTSP call with a freshly built request that has no cookie yet is accepted and gets a generated CSeq, as the API comment promises.", "quantifier": "every freshly built request", "why_tests_cant": "a path the tests avoid by calling seal first", "anchors": ["src/shared/rtsp.c: rtsp_call_async, rtsp_message_seal"]}
{"id": "C27", "title": "Replies are only matched to our own requests", "statement": "An incoming reply completes the call whose CSeq it carries and no other; an incoming request or a reply with an unknown CSeq never completes a call; replies we send ourselves never collide with outstanding calls even when the peer uses the same CSeq values.", "quantifier": "every history of sent requests, sent replies and received messages", "why_tests_cant": "cookie spaces of both sides overlap arbitrarily", "anchors": ["src/shared/rtsp.c: rtsp_incoming_message, rtsp_call_reply, rtsp_message_new_reply, RTSP_FLAG_REMOTE_COOKIE"]}
{"id": "C28", "title": "Supplicant control channel: one request at a time, answered in order", "statement": "At most one request is outstanding on a wpa_supplicant control socket; the next is written only after the reply to the previous one arrived; each reply is delivered to the callback of exactly the request it answers, in the order requests were issued, and each callback runs at most once.", "quantifier": "every interleaving of requests, replies, events, would-block results and cancellations", "why_tests_cant": "unbounded schedules", "anchors": ["src/shared/wpas.c: wpas_call_async, wpas__bus_write, wpas__bus_read, wpas__bus_call_reply"]}
{"id": "C29", "title": "Cancelled supplicant requests never call back", "statement": "After a wpa_supplicant request has been cancelled its callback never runs, and the reply that still arrives for it is not delivered to another request.", "quantifier": "every cancellation point and every later schedule", "why_tests_cant": "unbounded schedules", "anchors": ["src/shared/wpas.c: wpas_call_async_cancel, wpas__bus_read"]}
{"id": "C30", "title": "Supplicant messages survive sealing and parsing", "statement": "A supplicant reply or event text is parsed into exactly its whitespace-separated, unescaped tokens; a request sealed from a list of plain tokens consists of exactly these tokens separated by single spaces.", "quantifier": "every message text and token list", "why_tests_cant": "infinitely many texts", "anchors": ["src/shared/wpas.c: wpas__message_parse, wpas_message_seal, wpas_message_append_basic"]}
{"id": "C31", "title": "Sealed supplicant events carry their full text", "statement": "The number of bytes announced for a sealed event message covers the priority prefix and the complete text.", "quantifier": "every event and every priority level", "why_tests_cant": "the error depends on the number of digits of the level", "anchors": ["src/shared/wpas.c: wpas_message_seal"]}
{"id": "C32", "title": "DHCP option writer is bounded and preserves earlier options", "statement": "Adding an option to a DHCP packet keeps the option area well-formed, never writes outside the packet, leaves every previously added option unchanged and either appends the complete option followed by the end marker or leaves the packet unchanged when it does not fit.", "quantifier": "every packet built by any sequence of option additions", "why_tests_cant": "all option sequences and fill levels", "anchors": ["src/dhcp/common.c: dhcp_add_binary_option, dhcp_end_option, dhcp_init_header, dhcp_add_option_uint32"]}
{"id": "C33", "title": "DHCP options can be read back", "statement": "Looking up an option code in a packet built with the option writer returns exactly the data of the first option added with that code, or nothing when no option with that code was added.", "quantifier": "every packet built by any sequence of option additions, every code", "why_tests_cant": "all option sequences", "anchors": ["src/dhcp/common.c: dhcp_get_option, dhcp_add_binary_option"]}
{"id": "C34", "title": "DHCP option lookup terminates on every packet", "statement": "Looking up an option in any received packet terminates and reads only bytes inside the packet buffer.", "quantifier": "every received packet and every code, including hostile packets", "why_tests_cant": "hostile packets are a needle in 2^3000 inputs", "anchors": ["src/dhcp/common.c: dhcp_get_option"]}
{"id": "C35", "title": "Internet checksum", "statement": "The checksum computed over a block makes the one's complement sum of the block together with the checksum equal to all ones, and does not depend on the grouping of the words; odd lengths are padded with a zero byte.", "quantifier": "every byte block of at most 2^15 words", "why_tests_cant": "all blocks", "anchors": ["src/dhcp/common.c: dhcp_checksum"]}
{"id": "C36", "title": "DHCP lease table is consistent", "statement": "At every moment no two leases have the same address or the same client hardware address, every lease lies inside the configured range, and the lookup index by address agrees with the lease list.", "quantifier": "every sequence of discover/request/decline/release packets from any clients at any times, any configured range", "why_tests_cant": "unbounded packet histories", "anchors": ["src/dhcp/server.c: add_lease, get_lease, remove_lease, find_lease_by_mac, find_lease_by_nip, listener_event"]}
{"id": "C37", "title": "DHCP server chooses free addresses inside the range", "statement": "An address the server picks by itself for an offer lies in the configured range, is not a network (.0) or broadcast (.255) style address, and is not leased to another client unless that lease has expired.", "quantifier": "every lease table, range and client", "why_tests_cant": "all table states", "anchors": ["src/dhcp/server.c: find_free_or_expired_nip, check_requested_nip, send_offer, is_expired_lease"]}
{"id": "C38", "title": "DHCP: an acknowledged address is not given to a second client", "statement": "While a lease acknowledged to one client has not expired and was not released or declined, the server acknowledges its address to no other client.", "quantifier": "every packet history", "why_tests_cant": "needs a particular interleaving of two clients", "anchors": ["src/dhcp/server.c: listener_event, send_ACK, add_lease, get_lease"]}
{"id": "C39", "title": "DHCP offers are reserved", "statement": "An address offered to a client stays reserved for that client for the advertised offer time (300 s): within that time it is neither offered nor acknowledged to another client.", "quantifier": "every packet history and timing", "why_tests_cant": "needs a second client within the window", "anchors": ["src/dhcp/server.c: send_offer, add_lease, OFFER_TIME"]}
{"id": "C40", "title": "Sink video format selection", "statement": "Given the bit masks of resolutions announced by a sink, the selected resolution is the lowest supported entry of the first non-empty table in the order CEA, VESA, handheld, restricted to entries that exist; unknown bits never select an entry.", "quantifier": "every triple of 32-bit masks", "why_tests_cant": "2^96 inputs", "anchors": ["src/ctl/wfd.c: vfd_get_cea_resolution, vfd_get_vesa_resolution, vfd_get_hh_resolution", "src/ctl/ctl-sink.c: sink_set_format"]}
{"id": "C41", "title": "UIBC touch packet layout", "statement": "A touch event description with n pointers is encoded into a packet of even length whose length fields, type, pointer count and per-pointer id and big-endian coordinates are exactly those described.", "quantifier": "every number of pointers from 1 to 2^28-1, every coordinates, every spelling of the numbers", "why_tests_cant": "all pointer counts and values", "anchors": ["src/uibc/miracle-uibcctl.c: getUIBCGenericTouchPacket"]}
{"id": "C42", "title": "UIBC encoder writes only inside its buffer", "statement": "Encoding a touch event never writes outside the buffer allocated for the packet and never reads more description fields than there are.", "quantifier": "every event description", "why_tests_cant": "out of bounds writes by one byte are silent in tests", "anchors": ["src/uibc/miracle-uibcctl.c: getUIBCGenericTouchPacket, str_split"]}
{"id": "C43", "title": "Local P2P groups get distinct subnets", "statement": "Whenever a local group-owner group is started, its subnet is between 50 and 255 and different from the subnet of every other existing group; starting fails exactly when all are taken.", "quantifier": "every history of group creations and removals", "why_tests_cant": "unbounded histories", "anchors": ["src/wifi/wifid-supplicant.c: supplicant_group_new, supplicant_group_free"]}
{"id": "C44", "title": "P2P groups are freed exactly once", "statement": "Tearing down a group (process exit, removal event, last peer leaving) releases it exactly once, and no peer or group refers to a released object afterwards.", "quantifier": "every history of group starts, station connects/disconnects, peer losses and teardowns", "why_tests_cant": "needs particular interleavings", "anchors": ["src/wifi/wifid-supplicant.c: supplicant_group_free, supplicant_peer_drop_group, supplicant_group_drop, supplicant_peer_free"]}
{"id": "C45", "title": "Supplicant restart becomes ready again", "statement": "If the supplicant process fails at any time and is restarted, and the new process answers all setup requests, the link becomes ready.", "quantifier": "every failure point during setup", "why_tests_cant": "failure in the middle of setup is a race", "anchors": ["src/wifi/wifid-supplicant.c: supplicant_started, supplicant_stopped, supplicant_try_ready, supplicant_status_fn"]}
{"id": "C46", "title": "Link-local address range", "statement": "A randomly chosen link-local address always lies in 169.254.1.0 .. 169.254.254.255, whatever the random source returns.", "quantifier": "every sequence of random numbers that lets the choice finish", "why_tests_cant": "random source is unbounded", "anchors": ["src/dhcp/ipv4ll.c: ipv4ll_random_ip"]}
{"id": "C47", "title": "Strict number parser rejects an empty digit run", "statement": "Parsing a string that has no digit at the start (after an optional prefix) reports an error.", "quantifier": "every byte string without leading digit, every base", "why_tests_cant": "callers usually pass digits", "anchors": ["src/shared/shl_util.c: shl_atoi_ulln"]}
{"id": "C48", "title": "Quoted string functions stay inside their buffers", "statement": "Joining strings into a quoted line never writes outside the growing line buffer and yields a NUL-terminated line, or an error when the line has 2^31 bytes or more; decoding a quoted token in place never writes outside the token's buffer of length + 1 bytes and leaves the decoded string with its terminator at the front.", "quantifier": "every list of strings (up to 2^60 bytes in total), every token", "why_tests_cant": "the size estimate (2 bytes per character plus 4) must hold for every mix of escapes, quotes and separators", "anchors": ["src/shared/shl_util.c: shl_qstr_join, shl__qstr_encode, shl_qstr_decode_n"]}
{"id": "C49", "title": "Growing reallocation", "statement": "The growing reallocation either yields a buffer of at least the requested size whose beginning is the old contents and whose new part is zero, or fails and changes nothing; it fails only if the allocator fails.", "quantifier": "every buffer, every request up to 2^63 bytes, every allocator behaviour", "why_tests_cant": "size arithmetic near powers of two", "anchors": ["src/shared/shl_util.c: shl_greedy_realloc, shl_greedy_realloc0"]}
{"id": "C50", "title": "Growing reallocation of typed arrays", "statement": "The growing reallocation of an array of elements either yields room for at least the requested number of elements, keeping the old ones, or reports failure.", "quantifier": "every element size and element count", "why_tests_cant": "the byte size of the array may exceed 2^64, which no test allocates", "anchors": ["src/shared/shl_util.c: shl_greedy_realloc_t"]}
{"id": "C51", "title": "Path prefix test works on components", "statement": "A path starts with a prefix iff both are absolute or both relative and the components of the prefix are the first components of the path; then the remaining part of the path is returned, without leading slashes. The test always finishes.", "quantifier": "every pair of byte strings", "why_tests_cant": "repeated slashes and component boundaries combine without bound", "anchors": ["src/shared/shl_util.c: shl__path_startswith"]}
{"id": "C52", "title": "Statically defined rate limiter limits", "statement": "A rate limiter defined with the static initialiser behaves like one initialised at run time with the same interval and burst.", "quantifier": "every interval, burst and sequence of event times", "why_tests_cant": "a test would need to use the static form, which no caller does", "anchors": ["src/shared/shl_util.h: SHL_RATELIMIT_DEFINE, SHL_RATELIMIT_INIT", "src/shared/shl_util.c: shl_ratelimit_test"]}
{"id": "C53", "title": "Hash table works for every element pointers", "statement": "Every non-NULL element inserted successfully can be found afterwards, whatever the pointer values of the elements.", "quantifier": "every set of non-NULL pointers", "why_tests_cant": "needs elements at particular unrelated addresses; heap addresses in tests share their upper bits", "anchors": ["src/shared/shl_htable.c: htable_add, update_common, make_hval, ht_add"]}
{"id": "C54", "title": "Random delays stay below the given time", "statement": "A random delay for a whole number of seconds is less than that time in milliseconds.", "quantifier": "every random number, every positive number of seconds up to 4294967", "why_tests_cant": "the random source is unbounded", "anchors": ["src/dhcp/ipv4ll.c: ipv4ll_random_delay_ms"]}
{"id": "C55", "title": "Resolution mask generation", "statement": "The mask generated for a resolution index has exactly the bits 0..index set.", "quantifier": "every index below 30", "why_tests_cant": "all indices", "anchors": ["src/ctl/wfd.c: vfd_generate_resolution_mask"]}
{"id": "C56", "title": "UIBC key packet layout", "statement": "A key event description with type and two key codes is encoded into the 12-byte packet with exactly these fields; no byte outside the packet is written.", "quantifier": "every type and every key codes", "why_tests_cant": "all values", "anchors": ["src/uibc/miracle-uibcctl.c: getUIBCGenericKeyPacket, str_split"]}
{"id": "C57", "title": "DHCP: a client gets an address while there is one", "statement": "A discover from a client is answered with an offer whenever some address of the range is free or some lease has expired.", "quantifier": "every packet history at any times, every client", "why_tests_cant": "needs dates after 2038 or a nearly full range", "anchors": ["src/dhcp/server.c: find_free_or_expired_nip, compare_expire, get_lease, send_offer"]}
{"id": "C58", "title": "DHCP reply contents", "statement": "Every reply copies transaction, addresses and hardware address from the client's packet, carries the assigned address and, as options, message type, the server's own address as server identifier, the lease time and the configured options, in network byte order.", "quantifier": "every server configuration, client packet and answer", "why_tests_cant": "all values; wrong byte order shows up only to another implementation", "anchors": ["src/dhcp/server.c: init_packet, send_offer, send_ACK, send_NAK, add_server_options", "src/dhcp/common.c: dhcp_init_header, dhcp_add_simple_option"]}
{"id": "C59", "title": "DHCP server reads only the received packet", "statement": "Handling a packet reads nothing outside the received packet and finishes.", "quantifier": "every packet of at most 628 bytes", "why_tests_cant": "malformed options at the end of the packet", "anchors": ["src/dhcp/server.c: listener_event, check_server_nip, get_be32", "src/dhcp/common.c: dhcp_get_option, dhcp_get_packet_type"]}
{"id": "C60", "title": "DHCP: a client can renew its own lease", "statement": "A client that requests the address it has leased, in either of the two standard ways, is acknowledged, and its lease is extended to the full lease time.", "quantifier": "every packet history", "why_tests_cant": "all table states", "anchors": ["src/dhcp/server.c: listener_event, send_ACK, lease_set_expire"]}
{"id": "C61", "title": "RTSP messages with any number of headers", "statement": "Building and sealing a message is free of undefined behaviour for any number of headers.", "quantifier": "every sequence of builder calls", "why_tests_cant": "dangling pointers appear only when the header array moves", "anchors": ["src/shared/rtsp.c: rtsp_message_append_header, rtsp_header_append, rtsp_message_seal, rtsp_message_serialize_common"]}
{"id": "C62", "title": "RTSP parser is memory safe on any stream", "statement": "Whatever bytes the peer sends, in whatever chunks, the parser touches only live memory of its own.", "quantifier": "every byte stream and division into chunks", "why_tests_cant": "fuzzing reaches few messages with many headers; the access to freed memory is silent", "anchors": ["src/shared/rtsp.c: rtsp_parse_data and all parser_feed_char_*, parser_append_header, rtsp_message_append_body"]}
{"id": "C63", "title": "RTSP message from a buffer reads only the buffer", "statement": "Creating a message from a buffer reads no byte outside the buffer.", "quantifier": "every buffer content and length", "why_tests_cant": "a read of one byte after the buffer has no visible effect", "anchors": ["src/shared/rtsp.c: rtsp_message_new_from_raw, rtsp_message_append_body"]}
{"id": "C64", "title": "RTSP replies to repeated CSeq values are memory safe", "statement": "Sending messages, receiving, timeouts and cancelling never use a message after it was freed, even if the peer repeats a CSeq so that several queued replies carry the same cookie.", "quantifier": "every history of queued messages, writes, received messages, timeouts, cancellations and releases of user references", "why_tests_cant": "needs several replies with the same CSeq queued at once and a particular reuse of a hash table slot", "anchors": ["src/shared/rtsp.c: rtsp_unlink_waiting, rtsp_link_waiting, rtsp_write_message, rtsp_drop_message, rtsp_call_reply"]}
{"id": "C65", "title": "Supplicant requests reach the server side unchanged", "statement": "A request built from a name and string, integer and dictionary arguments, sealed and sent, is parsed by a receiving server as a request of the same name and argument strings, and reading the arguments back with their types yields the original values; once sealed a message cannot be changed.", "quantifier": "every name and every list of arguments, with any bytes except 0", "why_tests_cant": "quoting and escaping interact with every byte value and position", "anchors": ["src/shared/wpas.c: wpas_message_seal, wpas_message_append*, wpas__parse_message, wpas_message_read*", "src/shared/shl_util.c: shl_qstr_join, shl_qstr_tokenize"]}
{"id": "C66", "title": "Parsing any supplicant datagram is defined", "statement": "Whatever datagram arrives on a control socket, parsing it has no undefined behaviour.", "quantifier": "every datagram on the client and on the server side", "why_tests_cant": "infinitely many datagrams; the conversion of an out-of-range number shows no visible failure", "anchors": ["src/shared/wpas.c: wpas__parse_message, wpas__parse_args"]}
{"id": "C67", "title": "Supplicant interface prefix", "statement": "A datagram with an interface prefix is parsed as the datagram without it, and the interface name is recorded with the message.", "quantifier": "every interface name without blanks and every datagram", "why_tests_cant": "infinitely many texts", "anchors": ["src/shared/wpas.c: wpas__parse_message, wpas_message_get_ifname"]}
{"id": "C68", "title": "Supplicant dictionary lookup", "statement": "Looking up a key in a message yields the value of the first argument of the form key=value with that key, converted to the requested type, and ENOENT if there is none.", "quantifier": "every message and every key", "why_tests_cant": "infinitely many argument lists", "anchors": ["src/shared/wpas.c: wpas_message_dict_read"]}
{"id": "C69", "title": "P2P support is that of the running supplicant", "statement": "After setup the link offers P2P exactly if the STATUS reply of the current supplicant process reported P2P as available.", "quantifier": "every history of process starts, replies and failures", "why_tests_cant": "needs a restart with a different device state", "anchors": ["src/wifi/wifid-supplicant.c: supplicant_status_fn, supplicant_stopped, supplicant_try_ready"]}
{"id": "C70", "title": "Connected peers are in a group", "statement": "A peer is reported as connected only while it belongs to a P2P group.", "quantifier": "every history of peers found and lost, groups started and removed, stations joining and leaving, and lines from DHCP processes", "why_tests_cant": "unbounded histories; needs a late line from a DHCP client", "anchors": ["src/wifi/wifid-supplicant.c: supplicant_group_comm_fn, supplicant_peer_drop_group", "src/wifi/wifid-peer.c: peer_supplicant_connected_changed"]}
{"id": "C71", "title": "Match callbacks run in the order of registration", "statement": "A message is given to the registered callbacks in the order in which they were added, each at most once; delivery ends early only after a callback that returns non-zero.", "quantifier": "every list of registrations and every behaviour of the callbacks, including adding and removing registrations", "why_tests_cant": "unbounded number of registrations and of changes made by callbacks", "anchors": ["src/shared/wpas.c: wpas__call, wpas_add_match, wpas_remove_match", "src/shared/rtsp.c: rtsp_call, rtsp_add_match, rtsp_remove_match"]}
{"id": "C72", "title": "A removed match callback is not called", "statement": "After a registration was removed its callback is not called for it.", "quantifier": "every history of registrations, removals and messages", "why_tests_cant": "needs a callback that removes a later one", "anchors": ["src/shared/wpas.c: wpas__call, wpas_remove_match", "src/shared/rtsp.c: rtsp_call, rtsp_remove_match"]}
{"id": "C73", "title": "Removing a match takes back the latest registration", "statement": "Every removal of a callback and its data takes back exactly the latest registration of the pair that is still in force, and changes nothing if there is none.", "quantifier": "every history of registrations, removals and messages", "why_tests_cant": "needs several removals of one pair within one delivery", "anchors": ["src/shared/wpas.c: wpas__call, wpas_remove_match", "src/shared/rtsp.c: rtsp_call, rtsp_remove_match"]}
{"id": "C74", "title": "Wi-Fi display support is that of the running supplicant", "statement": "After setup the link has Wi-Fi display support exactly if the current supplicant process reported P2P and Wi-Fi display in its STATUS and accepted SET wifi_display.", "quantifier": "every history of process starts, replies and failures", "why_tests_cant": "needs a restart with a different device state", "anchors": ["src/wifi/wifid-supplicant.c: supplicant_status_fn, supplicant_set_wifi_display_fn, supplicant_try_ready"]}
{"id": "C75", "title": "Referenced buses and messages stay in memory", "statement": "As long as users only use references they have, no function touches a freed bus or message: the bus exists while anybody has a reference to it or to one of its messages, a message while anybody has a reference to it, and the counts equal the references of users, queues and parser.", "quantifier": "every history of taking and releasing references, creating, queueing, sending and parsing messages", "why_tests_cant": "bus and messages refer to each other; freeing is recursive; interleavings are unbounded", "anchors": ["src/shared/rtsp.c: rtsp_ref, rtsp_unref, rtsp_message_ref, rtsp_message_unref", "src/shared/wpas.c: wpas_ref, wpas_unref, wpas_message_ref, wpas_message_unref"]}
{"id": "C76", "title": "Releasing the last reference frees bus and messages", "statement": "When the last reference of a user to a bus and its messages is released, the bus, its queues and all messages are freed, and not before.", "quantifier": "every history of taking and releasing references, creating, queueing, sending and parsing messages", "why_tests_cant": "needs a release at the moment a message is queued; a leak has no visible effect", "anchors": ["src/shared/rtsp.c: rtsp_unref, rtsp_message_unref, rtsp_call_async", "src/shared/wpas.c: wpas_unref, wpas_message_unref"]}
{"id": "C77", "title": "DHCP options in overloaded fields", "statement": "Looking an option up in a received packet returns its first occurrence in the option area, else in the file field if the overload option's bit 0 is set, else in the server name field if bit 1 is set, and reports absence otherwise.", "quantifier": "every packet with well-formed options in the three fields, every overload value, every option code", "why_tests_cant": "all combinations of option lists in three fields", "anchors": ["src/dhcp/common.c: dhcp_get_option"]}
{"id": "C78", "title": "DHCP packets sent raw arrive unchanged", "statement": "A DHCP packet sent raw to port 68 is a valid IP/UDP packet, and the receiver of any byte order delivers its first 548 bytes unchanged, with the broadcast flag set.", "quantifier": "every DHCP packet, source, destination and source port, both byte orders of sender and receiver", "why_tests_cant": "all packets: checksums depend on every byte", "anchors": ["src/dhcp/common.c: dhcp_send_raw_packet", "src/dhcp/client.c: dhcp_recv_l2_packet"]}
{"id": "C79", "title": "The client accepts exactly valid packets", "statement": "A received frame is delivered exactly if it is an IPv4 packet without options with right checksums, carrying a UDP datagram for port 68 whose payload has the DHCP cookie; the payload is delivered unchanged.", "quantifier": "every frame", "why_tests_cant": "checksums over every frame; one packet in 65536 has the special checksum", "anchors": ["src/dhcp/client.c: dhcp_recv_l2_packet, sanity_check"]}
{"id": "C80", "title": "No frame is fatal to the client", "statement": "Whatever frame is received, the client reads and writes inside its buffers and uses only initialised bytes.", "quantifier": "every frame", "why_tests_cant": "needs a hostile frame with inconsistent lengths", "anchors": ["src/dhcp/client.c: dhcp_recv_l2_packet"]}
{"id": "C81", "title": "Values of received DHCP options", "statement": "For every requested option of a lease the values handed to the user are the option decoded by its type: each address in dotted notation, each number in decimal, a text up to its terminator, nothing for unknown options; the text buffer never overflows.", "quantifier": "every option code and every option data of up to 255 bytes", "why_tests_cant": "all option contents; needs options of odd length and a look at uninitialised memory", "anchors": ["src/dhcp/client.c: malloc_option_value_string, get_option_value_list, get_request", "src/dhcp/common.c: client_options"]}
{"id": "C82", "title": "A stopped DHCP client has no timers", "statement": "After a DHCP client was stopped no timer of it is pending, and it never removes a timer that is gone.", "quantifier": "every history of starts, stops, timers, packets, socket errors and failures, and callbacks that stop or start the client", "why_tests_cant": "needs every order of calls, packets and timers", "anchors": ["src/dhcp/client.c: g_dhcp_client_start, g_dhcp_client_stop, remove_timeouts, listener_event, start_bound"]}
{"id": "C83", "title": "A lease never outlives its time", "statement": "An address reported as available is reported lost, renewed or given back before its lease time ends.", "quantifier": "every history of packets, timers and calls, every lease time", "why_tests_cant": "needs hours of simulated time and every order of events", "anchors": ["src/dhcp/client.c: start_bound, start_renew, start_rebound, start_expire, listener_event"]}
{"id": "C84", "title": "Leases are renewed", "statement": "An acknowledgement that answers a renewal or a rebinding extends the lease by the time it grants.", "quantifier": "every history that leads to renewing or rebinding, every acknowledgement", "why_tests_cant": "needs a server and half the lease time; a later rebinding hides the ignored renewals", "anchors": ["src/dhcp/client.c: listener_event, continue_renew, continue_rebound", "src/dhcp/common.c: dhcp_get_option, dhcp_recv_l3_packet"]}
{"id": "C85", "title": "The DHCP handshake", "statement": "A started client that is sent an offer and an acknowledgement sends a DISCOVER, requests the offered address from the offering server, and reports the acknowledged address with its lease time.", "quantifier": "every earlier history of the client, every address, server and lease time, every delay", "why_tests_cant": "all earlier histories", "anchors": ["src/dhcp/client.c: g_dhcp_client_start, listener_event, start_request, send_discover, send_request"]}
{"id": "C86", "title": "No DHCP reply is fatal", "statement": "Whatever reply arrives, and whatever callbacks call, every step of the client is defined and ends.", "quantifier": "every client state, every packet content, every callback", "why_tests_cant": "needs replies without mandatory options in each state", "anchors": ["src/dhcp/client.c: listener_event, g_dhcp_client_start"]}
{"id": "C87", "title": "The client goes on or says that it gave up", "statement": "A running client has a timer pending, or its last act was the report that there is no lease; after that report it is silent until it is started again.", "quantifier": "every history, including failures to create sockets", "why_tests_cant": "needs failing sockets and late packets", "anchors": ["src/dhcp/client.c: restart_dhcp, start_expire, g_dhcp_client_start, listener_event"]}
{"id": "C88", "title": "The client gives up after six DISCOVERs", "statement": "Without an answer a client sends at most six DISCOVERs before it reports that there is no lease.", "quantifier": "every earlier history, every order of timers", "why_tests_cant": "needs a counter to wrap after an unusual history", "anchors": ["src/dhcp/client.c: g_dhcp_client_start, discover_timeout, restart_dhcp_timeout, restart_dhcp"]}
{"id": "C89", "title": "Verdicts of supplicant replies", "statement": "A received reply counts as good exactly if its text, after an interface prefix or without one, is OK and a newline, and as failed exactly if it is FAIL and a newline; other messages are neither; asking is always possible.", "quantifier": "every datagram, every message in any state", "why_tests_cant": "tests ask complete replies without prefix", "anchors": ["src/shared/wpas.c: wpas_message_is_ok, wpas_message_is_fail, wpas__parse_message"]}
{"id": "C90", "title": "A lost RTSP connection", "statement": "When the connection is lost the match callbacks are told so once, however often it is noticed, and from then on the bus accepts no message.", "quantifier": "every history of calls, replies, timeouts, writes, attaching and detaching", "why_tests_cant": "needs several hangups in unusual orders", "anchors": ["src/shared/rtsp.c: rtsp_hup, rtsp_call_async, rtsp_attach_event, rtsp_detach_event"]}
{"id": "C91", "title": "Numbering of RTSP messages", "statement": "The messages sealed on one bus that have no number yet are numbered 1, 2, 3 and so on, so their CSeq numbers differ.", "quantifier": "every sequence of fewer than 2^63 messages of any kind", "why_tests_cant": "unbounded number of messages", "anchors": ["src/shared/rtsp.c: rtsp_message_seal, rtsp_open"]}
{"id": "C92", "title": "Link-local addresses are claimed properly", "statement": "The client reports an address as available only if it is link-local and, since the first of three probes for it at least a second apart, followed after two seconds by two announcements two seconds apart and two more seconds, no ARP packet on the network named it.", "quantifier": "every history of starts, stops, timers (also late), ARP packets and socket failures, every behaviour of the callbacks", "why_tests_cant": "needs packets and failures at any moment of an eight second protocol", "anchors": ["src/dhcp/client.c: send_probe_packet, send_announce_packet, ipv4ll_probe_timeout, ipv4ll_announce_timeout, ipv4ll_recv_arp_packet, switch_listening_mode"]}
{"id": "C93", "title": "Link-local addresses are defended", "statement": "While an address is held, packets whose sender does not use it have no effect; a packet whose sender uses it is answered by an announcement, unless one was sent in the last ten seconds for such a packet, in which case the loss is reported; the loss is reported in no other case.", "quantifier": "every history, every packet, every behaviour of the callbacks", "why_tests_cant": "timing of packets relative to timers", "anchors": ["src/dhcp/client.c: ipv4ll_recv_arp_packet, send_announce_packet, ipv4ll_defend_timeout"]}
{"id": "C94", "title": "The link-local client gives up after ten conflicts", "statement": "A conflict makes the client try another address, except the tenth since it was started or last held an address, at which it reports that there is none.", "quantifier": "every history", "why_tests_cant": "needs long histories over several starts", "anchors": ["src/dhcp/client.c: ipv4ll_recv_arp_packet, ipv4ll_start, g_dhcp_client_start"]}
{"id": "C95", "title": "Only conflicts make the link-local client drop the address it tries", "statement": "While an address is being claimed only a packet whose sender uses it or probes for it makes the client try another.", "quantifier": "every history, every packet", "why_tests_cant": "needs ordinary traffic at unusual moments", "anchors": ["src/dhcp/client.c: ipv4ll_recv_arp_packet"]}
{"id": "C96", "title": "A stopped link-local client is silent", "statement": "After g_dhcp_client_stop, also from a callback, the client sends nothing and reports nothing until it is started again, whatever packets arrive and however much time passes.", "quantifier": "every history before and after the stop", "why_tests_cant": "unbounded histories, stops inside callbacks", "anchors": ["src/dhcp/client.c: g_dhcp_client_stop, ipv4ll_stop, ipv4ll_recv_arp_packet, ipv4ll_announce_timeout"]}
{"id": "C97", "title": "The link-local client finds an address", "statement": "A client that was started, not stopped, and has not reported failure holds an address once eleven seconds have passed since the start, since the last packet naming the address it tried, and since the last loss.", "quantifier": "every history with timers in time and working sockets, every value of the random delays", "why_tests_cant": "all interleavings of timers and packets", "anchors": ["src/dhcp/client.c: ipv4ll_start, send_probe_packet, send_announce_packet, ipv4ll_probe_timeout, ipv4ll_announce_timeout, ipv4ll_recv_arp_packet"]}
{"id": "C98", "title": "The address of the link-local client", "statement": "g_dhcp_client_get_address returns the address that was reported as available, while it is held, and null otherwise.", "quantifier": "every history", "why_tests_cant": "needs stops at unusual moments", "anchors": ["src/dhcp/client.c: g_dhcp_client_get_address, ipv4ll_announce_timeout, ipv4ll_stop, g_dhcp_client_stop"]}
{"id": "C99", "title": "A DHCP lease is renewed on schedule", "statement": "The client asks the server that gave a lease to renew it when half of its time has passed, and broadcasts the request when seven eighths have passed: no request for a lease is sent earlier or without one, and, unless a NAK arrives, none is missed.", "quantifier": "every history of calls, packets and timers without callbacks that call back; every lease time", "why_tests_cant": "leases last hours; every interleaving of timers and packets", "anchors": ["src/dhcp/client.c: start_bound, start_renew, start_rebound, continue_renew, continue_rebound, send_request"]}
{"id": "C100", "title": "Renewals are not sent in a burst", "statement": "Two requests to renew a lease at the same destination are at least a minute apart.", "quantifier": "every history; every lease time and every random number", "why_tests_cant": "needs leases of months", "anchors": ["src/dhcp/client.c: continue_renew, continue_rebound"]}
{"id": "C101", "title": "The address renewed and released is the address reported", "statement": "Requests for the extension of a lease and its release name the address that was reported to the user.", "quantifier": "every history, every packet", "why_tests_cant": "needs a server whose acknowledgement differs from its offer", "anchors": ["src/dhcp/client.c: listener_event, send_request, g_dhcp_client_stop"]}
{"id": "C102", "title": "OPTIONS is answered and returned", "statement": "An OPTIONS request of the source is answered with status 200, its sequence number and a Public header listing the methods of the sink; the sink then sends an OPTIONS request of its own. Nothing else changes.", "quantifier": "every state of the sink, every received OPTIONS request", "why_tests_cant": "needs the exact bytes for every sequence number and queue", "anchors": ["src/ctl/ctl-sink.c: sink_handle_options"]}
{"id": "C103", "title": "GET_PARAMETER is answered with the parameters asked for", "statement": "The reply to GET_PARAMETER holds exactly one line for every parameter that is asked for and offered, in the order of the sink; extensions of the user replace or add to the standard values; the answer is built inside its buffers.", "quantifier": "every state of the sink, every table of extensions, every received GET_PARAMETER request", "why_tests_cant": "the set of questions and of extensions is unbounded", "anchors": ["src/ctl/ctl-sink.c: sink_handle_get_parameter", "src/ctl/ctl-sink.h: check_and_response_option"]}
{"id": "C104", "title": "SET_PARAMETER is acknowledged and taken over", "statement": "A SET_PARAMETER request is acknowledged; presentation URL, UIBC capability and setting and the chosen video format are remembered; a trigger SETUP sends a SETUP request to the URL known then, with the port of the sink, unless no format given is known.", "quantifier": "every state of the sink, every received SET_PARAMETER request", "why_tests_cant": "all combinations of parameters present, absent, malformed and repeated", "anchors": ["src/ctl/ctl-sink.c: sink_handle_set_parameter, sink_set_format"]}
{"id": "C105", "title": "The session is started with the identifier the source has given", "statement": "When the source accepts the SETUP, PLAY is sent to the presentation URL with the first word of the Session header up to a semicolon; without acceptance, nothing is sent.", "quantifier": "every state of the sink, every reply", "why_tests_cant": "every shape of the Session header and every status", "anchors": ["src/ctl/ctl-sink.c: sink_setup_fn"]}
{"id": "C106", "title": "The input back channel follows the capability", "statement": "The back channel is on exactly if the user wants it and the latest capability names a port, and then that port is used.", "quantifier": "every state of the sink, every capability", "why_tests_cant": "the capability is free text", "anchors": ["src/ctl/ctl-sink.c: sink_handle_set_parameter"]}
{"id": "C107", "title": "Every request is answered once, in order", "statement": "In a session every request of the source is answered exactly once, in the order of the requests, with its sequence number.", "quantifier": "every sequence of requests", "why_tests_cant": "sessions of every length", "anchors": ["src/ctl/ctl-sink.c: sink_handle"]}
{"id": "C108", "title": "A sink is connecting, connected or closed", "statement": "At every moment exactly one of ctl_sink_is_connecting, ctl_sink_is_connected and ctl_sink_is_closed is true; ctl_sink_close closes; ctl_sink_connect on a sink that is not closed is refused and has no effect.", "quantifier": "every history of calls and events, with every behaviour of the callbacks including calls from inside them", "why_tests_cant": "every interleaving of calls, callbacks and socket events", "anchors": ["src/ctl/ctl-sink.c: ctl_sink_connect, ctl_sink_close, sink_connected, sink_io_fn, sink_close", "src/ctl/ctl-sink.c: ctl_sink_is_connecting, ctl_sink_is_connected, ctl_sink_is_closed"]}
{"id": "C109", "title": "The callbacks of a sink tell the life of every connection", "statement": "For every successful attempt to connect, connected is called at most once and before disconnected; disconnected is called exactly once unless the user closes the sink; no callback is called for a closed sink; the last callback agrees with what the sink answers.", "quantifier": "every history, every behaviour of the callbacks", "why_tests_cant": "needs calls from callbacks and events that arrive together", "anchors": ["src/ctl/ctl-sink.c: sink_io_fn, sink_connected, sink_rtsp_fn, sink_close"]}
{"id": "C110", "title": "A sink closes its descriptors, exactly once", "statement": "When a connection ends its socket is closed once; no descriptor of another part of the program is closed; the socket of a live connection is open; nothing stays open.", "quantifier": "every history, every behaviour of the callbacks, other parts of the program open descriptors at any time", "why_tests_cant": "a descriptor closed twice is only noticed when its number was taken in between", "anchors": ["src/ctl/ctl-sink.c: sink_close, sink_connected, sink_io_fn", "src/shared/rtsp.c: rtsp_unref, rtsp_drop"]}
{"id": "C111", "title": "miracle-sinkctl keeps no pointer to what is gone", "statement": "The link and the peers that miracle-sinkctl remembers exist; the running peer is connected; running and pending peer are Wi-Fi Display devices on the running link; freed memory is never used.", "quantifier": "every history of links, peers, property changes, timers and connections", "why_tests_cant": "needs peers that vanish or change at every moment", "anchors": ["src/ctl/sinkctl.c: ctl_fn_peer_free, ctl_fn_peer_connected, ctl_fn_peer_disconnected, ctl_fn_link_free, sink_timeout_fn, scan_timeout_fn", "src/ctl/ctl-wifi.c: ctl_peer_parse_properties, ctl_peer_free, ctl_wifi_parse_peer"]}
{"id": "C112", "title": "Without a peer miracle-sinkctl is quiet", "statement": "Whenever miracle-sinkctl runs on no peer the sink is closed, no attempt is scheduled and no player is running.", "quantifier": "every history", "why_tests_cant": "all interleavings of connection events and peer events", "anchors": ["src/ctl/sinkctl.c: ctl_fn_peer_free, ctl_fn_peer_disconnected, kill_gst, sink_timeout_fn"]}
{"id": "C113", "title": "miracle-sinkctl tries to connect at the given times", "statement": "A peer that joins is tried after one second, after a failure two seconds later, after another three seconds later, and no more; always at its current address; after a connection was lost no further attempt is made; attempts are at least a second apart.", "quantifier": "every history, every outcome of the attempts", "why_tests_cant": "real time and failures of every kind", "anchors": ["src/ctl/sinkctl.c: sink_timeout_fn, ctl_fn_sink_disconnected, ctl_fn_peer_connected"]}
{"id": "C114", "title": "miracle-sinkctl uses the sink well", "statement": "In spite of the defects of the sink, in miracle-sinkctl no foreign descriptor is closed, none is leaked, the socket of a connection is open, and connected and disconnected are reported rightly.", "quantifier": "every history, other parts of the program open descriptors at any time", "why_tests_cant": "a composition of two state machines", "anchors": ["src/ctl/sinkctl.c: ctl_fn_sink_connected, ctl_fn_sink_disconnected", "src/ctl/ctl-sink.c: sink_close, sink_io_fn"]}
{"id": "C115", "title": "miracle-sinkctl scans when it waits for peers, and not after its end", "statement": "When the running peer is lost, when a peer does not join in time and when a formation fails, scanning is asked for unless it is going on; no timer to scan is set while a peer is served; when the program ends, scanning it has asked for is switched off.", "quantifier": "every history", "why_tests_cant": "needs peers lost in every way and in every state", "anchors": ["src/ctl/sinkctl.c: scan_timeout_fn, ctl_fn_peer_free, ctl_fn_peer_formation_failure, ctl_fn_peer_disconnected, ctl_main", "src/ctl/ctl-wifi.c: ctl_link_set_p2p_scanning"]}
{"id": "C116", "title": "One player at a time, and only the player is killed", "statement": "Players are started one at a time, the player that is killed is the one started last, a signal goes to a process the program has started; a stream that is set up again gets a player if none is running.", "quantifier": "every history of processes that start and end", "why_tests_cant": "process numbers are reused after a long time", "anchors": ["src/ctl/sinkctl.c: spawn_gst, kill_gst, ctl_fn_sink_resolution_set, ctl_signal_fn"]}
{"id": "C117", "title": "The supervision of wpa_supplicant does not get stuck", "statement": "As long as a link is managed, either it is ready, or a timer is set, or a request to the running process is unanswered.", "quantifier": "every history of starts, stops, timers, ends of processes and connections, replies", "why_tests_cant": "needs processes that end at every moment of their setup", "anchors": ["src/wifi/wifid-supplicant.c: supplicant_start, supplicant_timer_fn, supplicant_failed, supplicant_started, supplicant_try_ready"]}
{"id": "C118", "title": "Times of the attempts to launch and to reach wpa_supplicant", "statement": "A timer is set to between 200 ms and 200 s ahead; after a failure to 200 ms or 30 s as the rate limit says; the n-th attempt to open the socket of a process is followed by the next 200 ms times n later, n up to 1000, counted anew for each process.", "quantifier": "every history, all clock readings", "why_tests_cant": "real time of minutes; a socket that never appears", "anchors": ["src/wifi/wifid-supplicant.c: supplicant_timer_fn, supplicant_failed, supplicant_open, supplicant_spawn"]}
{"id": "C119", "title": "Bound on the number of launches", "statement": "Between two starts of a link wpa_supplicant is launched at most four times within any ten seconds, however it fails.", "quantifier": "every history with a monotonic clock, every interval of ten seconds", "why_tests_cant": "all interleavings of failures and timers", "anchors": ["src/wifi/wifid-supplicant.c: supplicant_failed, supplicant_timer_fn, supplicant_new", "src/shared/shl_util.c: shl_ratelimit_test"]}
{"id": "C120", "title": "Every wpa_supplicant gets one signal, and only after its launch", "statement": "At most one process is running unsignalled, the current one; a process is launched only when all earlier ones were signalled; each is signalled at most once and not after it was waited for; after a stop nothing is left: no timer, no connection, no configuration file, every process signalled.", "quantifier": "every history", "why_tests_cant": "needs failures in every order", "anchors": ["src/wifi/wifid-supplicant.c: supplicant_spawn, supplicant_failed, supplicant_stop, supplicant_start"]}
{"id": "C121", "title": "Processes that ended are waited for", "statement": "Every process that wifid started and that ended is waited for after SIGCHLD was read, so that no zombie remains.", "quantifier": "every history", "why_tests_cant": "depends on which of two events comes first", "anchors": ["src/wifi/wifid-supplicant.c: supplicant_child_fn, supplicant_failed, supplicant_stop", "src/wifi/wifid.c: manager_signal_fn"]}
{"id": "C122", "title": "Connections to ended processes are freed", "statement": "When a process is given up or stopped its connections are freed and their descriptors closed.", "quantifier": "every history", "why_tests_cant": "a leak shows only after many restarts", "anchors": ["src/wifi/wifid-supplicant.c: supplicant_status_fn, supplicant_close", "src/shared/wpas.c: wpas_unref"]}
{"id": "C123", "title": "A failure counts once", "statement": "Each end of a process or connection and each refused attach counts as one failure for the rate limit; nothing else does.", "quantifier": "every history", "why_tests_cant": "needs a supplicant without socket for the device", "anchors": ["src/wifi/wifid-supplicant.c: supplicant_failed, supplicant_global_fn, supplicant_dev_fn, supplicant_child_fn", "src/shared/wpas.c: wpas__hup"]}
{"id": "C124", "title": "One text for each MAC address", "statement": "reformat_mac turns every spelling of an address (one or two digits of either case per byte, whatever follows) into its one canonical text of 17 characters, never writes beyond its buffer whatever the input, and changes nothing the second time; different addresses get different texts.", "quantifier": "every text", "why_tests_cant": "all spellings and all malformed texts", "anchors": ["src/shared/util.h: reformat_mac", "src/dhcp/server.c: ether_ntoa"]}
{"id": "C125", "title": "Messages of miracle-dhcp are taken as they were meant", "statement": "Any bytes from miracle-dhcp are handled without undefined behaviour and only their end frees the group; a remote lease sets the address of exactly the first peer known by that MAC address, by device or station address however written; a local address or router sets just that; other lines set nothing.", "quantifier": "every message, every group, all addresses", "why_tests_cant": "the writer prints MAC addresses differently from wpa_supplicant", "anchors": ["src/wifi/wifid-supplicant.c: supplicant_group_comm_fn, find_peer_by_any_mac, supplicant_event_ap_sta_connected", "src/dhcp/dhcp.c: server_event_fn, client_lease_fn"]}
{"id": "C126", "title": "wifid knows the current lease", "statement": "While the client of a group runs, the local address wifid has for the group is that of the last lease, the address of the group owner is the router of the last lease, and the owner is then reported connected.", "quantifier": "every sequence of leases and of failures to set the address", "why_tests_cant": "renewals change single options", "anchors": ["src/dhcp/dhcp.c: client_lease_fn, writef_comm", "src/wifi/wifid-supplicant.c: supplicant_group_comm_fn"]}
{"id": "C127", "title": "wifid reports the peers of its own group", "statement": "In a group of its own wifid reports a peer connected once the peer has joined, has an address and the local address is known, in whichever order it learns this.", "quantifier": "every group, every order of messages and joins", "why_tests_cant": "the order depends on the kernel and two processes", "anchors": ["src/wifi/wifid-supplicant.c: supplicant_group_comm_fn, supplicant_peer_set_group", "src/dhcp/dhcp.c: manager_run, server_event_fn"]}
{"id": "C128", "title": "What the control programs show is what is there", "statement": "A control program that asks wifid for all objects at any time and follows its signals has, at every later moment, exactly the links and peers wifid shows, with their index, interface name, friendly name, WFD subelements, MAC address and connected state; Managed, P2PScanning and the addresses too as long as nothing happens that wifid does not signal.", "quantifier": "every history of links, wpa_supplicant, peers and requests, every moment of asking, any number of links and peers", "why_tests_cant": "two programs that communicate; all interleavings of events", "anchors": ["src/wifi/wifid-dbus.c", "src/wifi/wifid-link.c", "src/wifi/wifid-peer.c", "src/ctl/ctl-wifi.c: ctl_wifi_fetch, ctl_wifi_properties_fn, ctl_wifi_object_fn"]}
{"id": "C129", "title": "Signals that overtake nothing but come late do no harm", "statement": "Signals sent between the moment a control program starts to listen and the moment wifid answers are heard after the answer, which already includes them; the program ends with the right picture all the same.", "quantifier": "every history before, between and after", "why_tests_cant": "the race is between two processes", "anchors": ["src/ctl/ctl-wifi.c: ctl_wifi_init, ctl_wifi_fetch, ctl_wifi_parse_object", "src/wifi/wifid-dbus.c"]}
{"id": "C130", "title": "Every property is kept up to date", "statement": "Every change of a property wifid shows reaches every control program: Managed, P2PScanning, the interface and the addresses of a connected peer.", "quantifier": "every history", "why_tests_cant": "needs a second control program, or an end of wpa_supplicant while it scans", "anchors": ["src/wifi/wifid-link.c: link_set_managed", "src/wifi/wifid-supplicant.c: supplicant_stopped, supplicant_group_comm_fn", "src/ctl/ctl-wifi.c"]}
{"id": "C131", "title": "The answer with all objects is read in any order", "statement": "A control program reads the answer of GetManagedObjects completely, in whatever order the objects come.", "quantifier": "every set of objects, every order", "why_tests_cant": "the order depends on the version of sd-bus", "anchors": ["src/ctl/ctl-wifi.c: ctl_wifi_fetch, ctl_wifi_parse_object, ctl_wifi_parse_peer", "src/wifi/wifid-dbus.c: manager_dbus_enumerate"]}
{"id": "C132", "title": "Nothing goes while it is in use", "statement": "When wifid tells that a peer is gone, it has told before that the peer is no longer connected; when it tells that a link is gone, it has told before that all its peers are.", "quantifier": "every history", "why_tests_cant": "every way a peer or link can go", "anchors": ["src/wifi/wifid-supplicant.c: supplicant_peer_free, supplicant_peer_drop_group, supplicant_stopped", "src/wifi/wifid-link.c: link_free"]}
{"id": "C133", "title": "Only the commands of the usage, with the right number of arguments", "statement": "A word that is not in the usage of the program (or is for the prompt only, on the command line) is reported as not found and has no effect; a wrong number of arguments is rejected without effect; a command of the usage is never reported as not found, whatever wifid answers; help lists exactly the commands that can be used, exit apart.", "quantifier": "every program, word, list of arguments, state and answer of wifid", "why_tests_cant": "needs all words and all counts", "anchors": ["src/ctl/ctl-cli.c: cli_do, cli_help", "src/ctl/sinkctl.c: cli_cmds", "src/ctl/wifictl.c: cli_cmds"]}
{"id": "C134", "title": "Sessions with the control programs are safe", "statement": "Whatever is typed, whatever wifid answers and signals, and whenever links appear and go, the control programs never use an argument that is not there, a link that is gone, or a value that was never told.", "quantifier": "every sequence of lines and signals, every state of wifid at the start", "why_tests_cant": "all interleavings of commands with signals", "anchors": ["src/ctl/sinkctl.c", "src/ctl/wifictl.c", "src/ctl/ctl-cli.c", "src/ctl/ctl-wifi.c"]}
{"id": "C135", "title": "Commands do what they mean", "statement": "A command of the usage asks wifid for exactly what it means: the setting of the link that is named or current, unless it is so already, scanning for managed links, connecting and disconnecting peers of managed links, and for run, bind and select the WFD subelements; and it changes the current link accordingly.", "quantifier": "every state, every name, every answer of wifid", "why_tests_cant": "all names and states", "anchors": ["src/ctl/sinkctl.c: cmd_run, cmd_bind, cmd_set_friendly_name, cmd_set_managed", "src/ctl/wifictl.c: cmd_select, cmd_p2p_scan, cmd_connect, cmd_disconnect"]}
{"id": "C136", "title": "Nothing is asked of wifid that was not said", "statement": "Whenever a command asks wifid for something or changes the current link, the line has a meaning by the usage of the program, and this is what is done.", "quantifier": "every line, every state", "why_tests_cant": "needs all lines that are not in the usage", "anchors": ["src/ctl/wifictl.c: cmd_set_managed, cmd_connect, cmd_p2p_scan", "src/ctl/sinkctl.c: cmd_set_managed"]}
{"id": "C137", "title": "Names of links and peers", "statement": "A link is found by its label, else by the name of its interface, else by its friendly name; a peer by its label, else by MAC, friendly name, interface or place among the peers of the link named behind the @, else in the same way among all; in each case the first. Names that belong to nothing find nothing.", "quantifier": "every picture, every text", "why_tests_cant": "the order of preference shows only if names collide", "anchors": ["src/ctl/ctl-wifi.c: ctl_wifi_search_link, ctl_wifi_search_peer, ctl_wifi_find_peer"]}
{"id": "C138", "title": "Completion offers what there is", "statement": "For each kind of argument completion offers exactly the names that begin with the text, each once for each object, in order, and ends.", "quantifier": "every picture, every text, whatever was completed before", "why_tests_cant": "depends on static variables left by earlier completions", "anchors": ["src/ctl/ctl-cli.c: links_generator, peers_generator, links_peers_generator, yes_no_generator, command_generator"]}
{"id": "C139", "title": "Completion knows which argument is typed", "statement": "At every point of every line that begins with a command, completion offers the names for the argument that is being typed, and nothing if there is none.", "quantifier": "every line, with any number of words and blanks", "why_tests_cant": "needs lines with more words than the command takes", "anchors": ["src/ctl/ctl-cli.c: completion_fn, get_args"]}
{"id": "C140", "title": "The sink runs on managed links only", "statement": "miracle-sinkctl asks for scanning on a link, and makes it the link it runs on, only if the link is managed.", "quantifier": "every command, every signal", "why_tests_cant": "a link that is plugged in later", "anchors": ["src/ctl/sinkctl.c: cmd_run, cmd_bind, run_on, ctl_fn_link_new"]}
{"id": "C141", "title": "Scans end with the program", "statement": "Every scan the program has started and wifid has accepted is stopped at the end of the session.", "quantifier": "every session", "why_tests_cant": "the signal about the scan and the end of the session race", "anchors": ["src/ctl/wifictl.c: ctl_interactive", "src/ctl/sinkctl.c: ctl_main", "src/ctl/ctl-wifi.c: ctl_link_set_p2p_scanning"]}
{"id": "C142", "title": "Options count before the configuration file, and that before the defaults", "statement": "Each setting of miracle-sinkctl is the last option given for it, or the value in the configuration file, or the default; the words of autocmd come after the other words of the command line, in order.", "quantifier": "every command line, every configuration file", "why_tests_cant": "needs all combinations of option, file and default for each setting", "anchors": ["src/ctl/sinkctl.c: parse_argv, main"]}
{"id": "C143", "title": "Words that are no log level are refused", "statement": "The name of a level in any case gives its number, a number gives itself, and any other word is refused or changes nothing.", "quantifier": "every text", "why_tests_cant": "names, numbers of every size, signs, prefixes, words with typing errors", "anchors": ["src/shared/shl_log.c: log_parse_arg"]}
{"id": "C144", "title": "Settings of wifictl and wifid", "statement": "Each setting of miracle-wifictl and miracle-wifid is the last option given for it, or the value in the configuration file, or the default; miracle-wifid refuses words that are no options.", "quantifier": "every command line, every configuration file", "why_tests_cant": "needs all combinations of option, file and default for each setting", "anchors": ["src/ctl/wifictl.c: parse_argv, main", "src/wifi/wifid.c: parse_argv, load_ini_config"]}
{"id": "C145", "title": "The command line of the player fits", "statement": "Whatever the settings and the session, the words of the player fit the array of 64, the numbers their buffers of 64, and the text for the log fills its allocation exactly.", "quantifier": "every setting, every session", "why_tests_cant": "buffers of fixed size, numbers at the limits of int, texts of any length", "anchors": ["src/ctl/sinkctl.c: launch_player"]}
{"id": "C146", "title": "The player does what the settings say", "statement": "The player that is started plays the port of the settings, with sound, scaling and debug output exactly if asked for.", "quantifier": "every setting, every session", "why_tests_cant": "the programs meet only at run time; the scripts are not part of the build", "anchors": ["src/ctl/sinkctl.c: launch_player", "res/miracle-gst", "res/uibc-viewer", "res/gstplayer"]}
{"id": "C147", "title": "The configuration of wpa_supplicant", "statement": "The file written for wpa_supplicant gives each key exactly the value of the link, and the command line the verbosity asked for; an intent over 15 is not used.", "quantifier": "every name, method, parameter and intent", "why_tests_cant": "texts with line breaks, numbers that wrap", "anchors": ["src/wifi/wifid-supplicant.c: supplicant_write_config, supplicant_run", "src/wifi/wifid-link.c: link_set_go_intent", "src/wifi/wifid.c: manager_add_udev_link"]}
{"id": "C148", "title": "Which devices are links", "statement": "There is exactly one link for each network device that udev named acceptably (not p2p-..., the name of --interface if given) and did not remove since, and none for index 0.", "quantifier": "every order of events of udev, users and processes", "why_tests_cant": "the devices of a test machine come and go in one order", "anchors": ["src/wifi/wifid.c: manager_udev_fn, manager_add_udev_link", "src/wifi/wifid-link.c: link_new, link_free"]}
{"id": "C149", "title": "Only the chosen interface", "statement": "With --interface all links have the name that was chosen.", "quantifier": "every order of events", "why_tests_cant": "interfaces are seldom renamed", "anchors": ["src/wifi/wifid.c: manager_udev_fn", "src/wifi/wifid-link.c: link_renamed"]}
{"id": "C150", "title": "Events of udev are safe", "statement": "No event of udev leads to undefined behaviour.", "quantifier": "every order of events, with and without names", "why_tests_cant": "events without INTERFACE are rare", "anchors": ["src/wifi/wifid.c: manager_udev_fn"]}
{"id": "C151", "title": "Managed as asked for", "statement": "A link is managed exactly as the user, or before that the options and tags, said last.", "quantifier": "every order of events", "why_tests_cant": "needs an event of the device after the choice of the user", "anchors": ["src/wifi/wifid.c: manager_udev_fn, manager_add_udev_link", "src/wifi/wifid-link.c: link_set_managed", "src/wifi/wifid-dbus.c: link_dbus_set_managed"]}
{"id": "C152", "title": "Unmanaged links are quiet", "statement": "A link that is not managed has no wpa_supplicant, is not ready and has no control paths.", "quantifier": "every order of events, failing starts", "why_tests_cant": "needs failures of processes at every moment", "anchors": ["src/wifi/wifid-link.c: link_set_managed", "src/wifi/wifid-supplicant.c: supplicant_start, supplicant_stop"]}
{"id": "C153", "title": "wpa_supplicant has the names of the link", "statement": "The device name and the WFD subelements wpa_supplicant was told last are those of its link.", "quantifier": "every order of settings, replies, failures and restarts", "why_tests_cant": "the window between a setup request and the end of the setup is short", "anchors": ["src/wifi/wifid-link.c: link_set_friendly_name, link_set_wfd_subelements", "src/wifi/wifid-supplicant.c: supplicant_status_fn, supplicant_set_wifi_display_fn"]}
{"id": "C154", "title": "The name of the machine", "statement": "A link that was given no name is announced under the name of the machine; names and subelements come from the user or the machine.", "quantifier": "every order of events", "why_tests_cant": "the default Miracle looks like a name", "anchors": ["src/wifi/wifid.c: manager_add_udev_link", "src/wifi/wifid-link.c: link_supplicant_started", "src/wifi/wifid-supplicant.c: supplicant_status_fn"]}
{"id": "C155", "title": "The control path of wpa_supplicant", "statement": "The interface wpa_supplicant is started for is the one in the paths miracle-wifid connects to.", "quantifier": "every order of renames, failures and restarts", "why_tests_cant": "needs a rename and then a failure of the process", "anchors": ["src/wifi/wifid-supplicant.c: supplicant_start, supplicant_run", "src/wifi/wifid-link.c: link_renamed"]}
{"id": "C156", "title": "DHCPv6 options are found", "statement": "Looking for an option of a received DHCPv6 message gives the last one with that code and the number of them, and reads nothing outside the message.", "quantifier": "every message of bytes", "why_tests_cant": "needs messages cut at every byte", "anchors": ["src/dhcp/common.c: dhcpv6_get_option"]}
{"id": "C157", "title": "DHCPv6 addresses and prefixes", "statement": "Of a well-formed identity association all addresses and prefixes that are alive are read, with the times of the lease; those of others are ignored.", "quantifier": "every list of sub-options, all codes, times and identifiers", "why_tests_cant": "servers rarely send more than one address or prefix", "anchors": ["src/dhcp/client.c: get_addresses", "src/dhcp/common.c: dhcpv6_get_sub_option"]}
{"id": "C158", "title": "DHCPv6 identity associations stay inside their option", "statement": "What is read from an identity association does not depend on the bytes behind it.", "quantifier": "every value of the option, whatever follows", "why_tests_cant": "needs lengths that contradict each other", "anchors": ["src/dhcp/client.c: get_addresses", "src/dhcp/common.c: dhcpv6_get_sub_option"]}
{"id": "C159", "title": "DHCPv6 lists of servers and names", "statement": "Lists of servers and of domain names are read as they were written and only from their option.", "quantifier": "all lists, all messages, all sets of requested options", "why_tests_cant": "needs names that do not end in their option", "anchors": ["src/dhcp/client.c: get_domains, get_dhcpv6_option_value_list, get_dhcpv6_request"]}
{"id": "C160", "title": "DHCPv6 messages of others are ignored", "statement": "The user hears only of messages with the transaction and identifier of the client, exactly one server, the known one, and an expected type; others change nothing.", "quantifier": "every message, every state of the client", "why_tests_cant": "needs identifiers one of which begins with the other, and failing reads", "anchors": ["src/dhcp/client.c: listener_event, check_package_owner"]}
{"id": "C161", "title": "DHCPv6 messages are heard", "statement": "The user hears of every message that is meant for the client, and the status and the lists are those of the message.", "quantifier": "every well-formed message, every state of the client", "why_tests_cant": "servers rarely commit rapidly", "anchors": ["src/dhcp/client.c: listener_event"]}
{"id": "C162", "title": "Making a directory and those it is in", "statement": "If shl_mkdir_p or shl_mkdir_p_prefix returns 0 the path is that of a directory; whatever it returns, nothing is removed or changed and everything new is a directory with the mode.", "quantifier": "every file system without links, every path with or without dots, every refusal by the kernel", "why_tests_cant": "tests use a few paths on one file system", "anchors": ["src/shared/shl_util.c: shl__mkdir_p, shl__mkdir_parents, shl__is_dir"]}
{"id": "C163", "title": "Making a directory succeeds if nothing is in the way", "statement": "If there is no file on the way and the prefix exists, the directory is made or the error is that of the kernel for a directory on the way that is then missing; with a file on the way the error is ENOTDIR or EEXIST and nothing is made.", "quantifier": "every file system, every path without dots, every refusal by the kernel", "why_tests_cant": "needs directories that fail in the middle of a path", "anchors": ["src/shared/shl_util.c: shl__mkdir_p, shl__mkdir_parents"]}
{"id": "C164", "title": "The prefix bounds what is made", "statement": "shl_mkdir_p_prefix makes only directories below the prefix; a path elsewhere is refused with ENOTDIR, a missing prefix with ENOENT.", "quantifier": "every prefix, every path", "why_tests_cant": "callers use two constant paths", "anchors": ["src/shared/shl_util.c: shl__mkdir_parents, shl__path_startswith"]}
{"id": "C165", "title": "Two strings are joined", "statement": "shl_strcat returns both texts one after the other, absent ones counting as empty, or NULL if the length cannot be represented.", "quantifier": "all pairs of strings", "why_tests_cant": "the check concerns lengths near 2^64", "anchors": ["src/shared/shl_util.c: shl_strcat"]}
{"id": "C166", "title": "Many strings are joined", "statement": "shl_strjoin returns all texts one after the other, or NULL if the length cannot be represented; it writes only to the block it allocated.", "quantifier": "all lists of strings", "why_tests_cant": "the check concerns lengths near 2^64", "anchors": ["src/shared/shl_util.c: shl_strjoin"]}
{"id": "C167", "title": "Peers live as long as they are known", "statement": "Whatever wpa_supplicant tells and whatever clients call, the daemon never uses a peer that was freed: not through the attempt it has recorded, not when it stops. Each device address is one peer, and peers are on the bus exactly while wpa_supplicant runs.", "quantifier": "all sequences of events, replies and calls, of any length, with any texts as addresses", "why_tests_cant": "the recorded attempt is a bare pointer; whether it dangles depends on the order of all earlier events", "anchors": ["src/wifi/wifid-supplicant.c: supplicant_peer_free", "src/wifi/wifid-supplicant.c: supplicant_parse_peer", "src/wifi/wifid-supplicant.c: supplicant_stop", "src/wifi/wifid-peer.c: peer_supplicant_started"]}
{"id": "C168", "title": "Known peers are the devices around", "statement": "The peers of a link are the devices whose P2P-DEVICE-FOUND event or P2P_PEER reply was read and which were not reported lost since.", "quantifier": "all sequences of events, replies and calls, of any length", "why_tests_cant": "devices come and go in any order; two addresses of one device must agree", "anchors": ["src/wifi/wifid-supplicant.c: supplicant_event_p2p_device_found", "src/wifi/wifid-supplicant.c: supplicant_event_p2p_device_lost"]}
{"id": "C169", "title": "Connect asks for what the user or the peer wants", "statement": "Connect on a peer sends P2P_CONNECT with the address, the method that was given, or else the one the peer asked for last, or else push button, and for the methods with a PIN the PIN that was given or else the one shown last. It is refused with EINVAL for other methods and if a PIN is needed and there is none, with EALREADY while another device is tried, and it does nothing if the peer is already in a group. What the peer asked for is forgotten when the user disconnects and when the peer is lost.", "quantifier": "all histories of events and calls, all methods and PINs", "why_tests_cant": "the request depends on the last of any number of provisioning events for this very peer", "anchors": ["src/wifi/wifid-supplicant.c: supplicant_peer_connect", "src/wifi/wifid-supplicant.c: supplicant_peer_disconnect", "src/wifi/wifid-dbus.c: peer_dbus_connect"]}
{"id": "C170", "title": "One attempt at a time", "statement": "Connecting to another device is refused exactly while an attempt is going on: it was asked for, has not failed, the device is there and the user has not disconnected.", "quantifier": "all sequences of events and calls", "why_tests_cant": "the attempt ends in many ways, in any order with scans and calls", "anchors": ["src/wifi/wifid-supplicant.c: supplicant_peer_connect", "src/wifi/wifid-supplicant.c: supplicant_p2p_start_scan", "src/wifi/wifid-supplicant.c: supplicant_peer_disconnect"]}
{"id": "C171", "title": "Failures are told once", "statement": "If an attempt fails, is lost or ends before it succeeded, FormationFailure is signalled for its peer, once per attempt, and for no other peer.", "quantifier": "all sequences of events and calls", "why_tests_cant": "any number of attempts, retries and failures interleave", "anchors": ["src/wifi/wifid-supplicant.c: supplicant_event_p2p_go_neg_failure", "src/wifi/wifid-supplicant.c: supplicant_event_p2p_group_formation_failure", "src/wifi/wifid-supplicant.c: supplicant_event_ap_sta_disconnected"]}
{"id": "C172", "title": "What peers ask for is told", "statement": "Each provisioning event of a known peer is signalled with its method and PIN, and each request to negotiate with the method the peer asks for.", "quantifier": "all histories of events and calls", "why_tests_cant": "the method told depends on the whole history of the peer", "anchors": ["src/wifi/wifid-supplicant.c: supplicant_event_p2p_prov_disc_show_pin", "src/wifi/wifid-supplicant.c: supplicant_event_p2p_go_neg_request", "src/wifi/wifid-dbus.c: peer_dbus_provision_discovery"]}
{"id": "C173", "title": "Identity associations carry what was asked for", "statement": "Setting an IA_NA or IA_TA option stores it with the identity of the client (the one that was set, or the last four bytes of the hardware address), the times T1 and T2 that were given and one IAADDR option for each address that was given, replaces an older option of the same kind, leaves the other options alone, and requests it.", "quantifier": "all clients, all times, all lists of addresses of any length", "why_tests_cant": "the option is built in buffers of a size computed from lists of any length; tests try a few addresses", "anchors": ["src/dhcp/client.c: g_dhcpv6_client_set_ia", "src/dhcp/client.c: g_dhcpv6_client_set_ias", "src/dhcp/client.c: put_iaid", "src/dhcp/client.c: append_iaaddr"]}
{"id": "C174", "title": "Prefix delegations carry what was asked for", "statement": "Setting an IA_PD option stores it with the identity of the client, which is the one of its other identity associations, the times that were given and one IAPREFIX option for each prefix; if they do not fit into 1452 bytes EINVAL is returned and the stored options do not change.", "quantifier": "all clients, all times, all lists of prefixes of any length", "why_tests_cant": "a fixed buffer is filled from a list of any length; the bound must be right for every length", "anchors": ["src/dhcp/client.c: g_dhcpv6_client_set_pd"]}
{"id": "C175", "title": "The option request holds the codes that were given", "statement": "g_dhcpv6_client_set_oro stores an ORO option with exactly the codes that were given, in order, for any number of codes.", "quantifier": "all lists of codes of any length", "why_tests_cant": "the length of the option is a 16-bit number that wraps for long lists", "anchors": ["src/dhcp/client.c: g_dhcpv6_client_set_oro", "src/dhcp/client.c: g_dhcpv6_client_set_send"]}
{"id": "C176", "title": "DHCPv6 messages are well-formed and complete", "statement": "After any sequence of calls, each message that is sent is a type, a transaction id and whole options of different codes, in at most 1500 bytes, written without leaving the buffer; it holds the options that are requested and can be filled in, with the time since the first try, and all stored options, whenever these fit.", "quantifier": "all sequences of calls of any length, all orders of the table, all identifiers", "why_tests_cant": "which options are stored and how long they are depends on any sequence of calls; whether the buffer is left depends on all lengths together", "anchors": ["src/dhcp/client.c: send_dhcpv6_msg", "src/dhcp/client.c: add_dhcpv6_request_options", "src/dhcp/client.c: add_dhcpv6_binary_option"]}
{"id": "C177", "title": "Messages that are sent again keep their transaction", "statement": "All messages that are sent again carry the transaction id of the first and the time since then in hundredths of a second, at most 65535.", "quantifier": "all sequences of calls, all times", "why_tests_cant": "the id must survive any calls in between; the time is computed with wrapping numbers", "anchors": ["src/dhcp/client.c: send_dhcpv6_msg", "src/dhcp/client.c: get_time_diff"]}
{"id": "C178", "title": "Identifiers are made as RFC 3315 says", "statement": "g_dhcpv6_create_duid makes a DUID-LLT or DUID-LL with the hardware type, the time since 2000 modulo 2^32 and the hardware address, and fails for other types and if the hardware address cannot be read.", "quantifier": "all hardware types, times and addresses", "why_tests_cant": "times wrap and types are cut; tests use one interface", "anchors": ["src/dhcp/client.c: g_dhcpv6_create_duid", "src/dhcp/client.c: g_dhcpv6_client_create_iaid"]}
{"id": "C179", "title": "The one that asked is told", "statement": "g_dhcp_client_start sends the message of the callback that was registered, and a reply is told to the callback whose message was sent, whichever callbacks are registered.", "quantifier": "all sets of callbacks", "why_tests_cant": "256 sets of callbacks, of which tests use a few", "anchors": ["src/dhcp/client.c: g_dhcp_client_start", "src/dhcp/client.c: listener_event"]}
{"id": "C180", "title": "Every line of input becomes its message", "statement": "miracle-uibcctl writes to the connection the messages of the events on its standard input, one for each line that describes a touch (0, 1, 2) or a key (3, 4), in order, nothing for other lines, and comes to an end at the end of the input.", "quantifier": "all sequences of lines of any length", "why_tests_cant": "the buffer has 256 bytes, events any number of pointers; order and completeness are over whole sessions", "anchors": ["src/uibc/miracle-uibcctl.c: main", "src/uibc/miracle-uibcctl.c: buildUibcMessage", "src/uibc/miracle-uibcctl.c: sendUibcMessage"]}
{"id": "C181", "title": "Clicks and keys of the viewer arrive as they are", "statement": "For all sequences of mouse and key events, what gstplayer prints is turned by miracle-uibcctl into the messages with exactly these coordinates and key codes.", "quantifier": "all sequences of events, all coordinates, all key codes of 32 bits", "why_tests_cant": "which codes survive depends on the number of digits; tests use Latin letters", "anchors": ["res/gstplayer: on_mouse_pressed", "res/gstplayer: on_key_pressed", "src/uibc/miracle-uibcctl.c: getUIBCGenericKeyPacket"]}
{"id": "C182", "title": "Gestures give messages", "statement": "getUIBCGenericZoomPacket, getUIBCGenericScalePacket and getUIBCGenericRotatePacket give a message for every text that describes such an event.", "quantifier": "all texts", "why_tests_cant": "whether the loop stops depends on memory after an array", "anchors": ["src/uibc/miracle-uibcctl.c: getUIBCGenericZoomPacket", "src/uibc/miracle-uibcctl.c: getUIBCGenericScalePacket", "src/uibc/miracle-uibcctl.c: getUIBCGenericRotatePacket"]}
{"id": "C183", "title": "A client that follows the signals knows the devices", "statement": "At every moment, a client that from any earlier moment on keeps account of the signals InterfacesAdded, InterfacesRemoved, PropertiesChanged of Connected, and of ProvisionRequest, GoNegRequest and FormationFailure of one peer never hears one that contradicts what it knows (an object added twice, gone twice, gone while connected, a change of Connected that is none, a request of an object that is not there), and what it knows is what is on the bus.", "quantifier": "all histories of events and method calls, all moments at which the client starts to listen, all devices", "why_tests_cant": "histories are unbounded; a signal that is lost or sent twice in a rare order is not seen by tests of single events", "anchors": ["src/wifi/wifid-peer.c: peer_supplicant_started", "src/wifi/wifid-peer.c: peer_supplicant_stopped", "src/wifi/wifid-peer.c: peer_supplicant_connected_changed", "src/wifi/wifid-dbus.c: peer_dbus_added", "src/wifi/wifid-supplicant.c: supplicant_peer_drop_group"]}
{"id": "C184", "title": "Scans are asked for exactly while wpa_supplicant runs with P2P", "statement": "supplicant_p2p_start_scan sends P2P_FIND and returns 0 or the error of sending, and supplicant_p2p_stop_scan sends P2P_STOP_FIND, exactly if wpa_supplicant has become ready with P2P and has not stopped since; else start returns -EINVAL and nothing is sent.", "quantifier": "all histories of events and method calls", "why_tests_cant": "whether it runs is a fact about the whole history", "anchors": ["src/wifi/wifid-supplicant.c: supplicant_p2p_start_scan", "src/wifi/wifid-supplicant.c: supplicant_p2p_stop_scan"]}
{"id": "C185", "title": "Addresses of miracle-dhcp are checked exactly", "statement": "make_address and make_subnet accept a text exactly if it is four decimal numbers below 256 without leading zeros, with dots between them, and keep it as it is; the address is the prefix (192.168.77 if none is given), a dot and the suffix.", "quantifier": "all texts of any length as prefix, suffix and mask", "why_tests_cant": "texts are unbounded; leading zeros, overlong and cut texts are rarely tested", "anchors": ["src/dhcp/dhcp.c: make_address", "src/dhcp/dhcp.c: make_subnet"]}
{"id": "C186", "title": "The command line of miracle-dhcp decides what it does", "statement": "For every command line of known options the program starts exactly if there is no other word, an interface is named, the ip program can be executed and, as client, no option of the server is given or, as server, all addresses are valid; the configuration then has the last value of each option, or its default. Help and version end it with success, a wrong option with failure.", "quantifier": "all command lines, all values", "why_tests_cant": "combinations and order of sixteen options are unbounded", "anchors": ["src/dhcp/dhcp.c: parse_argv"]}
{"id": "C187", "title": "wifid and miracle-dhcp agree on the network of a group", "statement": "The words with which wifid starts miracle-dhcp for a group give a server (or client) on the interface of the group with the log level and socket of wifid; a server has 192.168.n.1 and leases exactly 192.168.n.100 to 192.168.n.199 for the subnet n of the group. Addresses leased in two local groups of a link are never the same.", "quantifier": "all interfaces, subnets, log levels, file descriptors, histories of groups and packets of any length", "why_tests_cant": "spans two programs and two unbounded histories", "anchors": ["src/wifi/wifid-supplicant.c: supplicant_group_spawn_dhcp_server", "src/wifi/wifid-supplicant.c: supplicant_group_spawn_dhcp_client", "src/wifi/wifid-supplicant.c: supplicant_group_new", "src/dhcp/dhcp.c: parse_argv", "src/dhcp/dhcp.c: manager_new"]}
{"id": "C188", "title": "Local groups have networks of their own", "statement": "No two local groups of the daemon that exist at the same time have the same network.", "quantifier": "all histories of all links", "why_tests_cant": "needs several wireless devices at once", "anchors": ["src/wifi/wifid-supplicant.c: supplicant_group_new", "src/wifi/wifid-supplicant.c: supplicant_group_spawn_dhcp_server"]}
{"id": "C189", "title": "The interface has an address exactly while it may be used", "statement": "While miracle-dhcp runs, the interface has at every moment its old addresses, none, or exactly one set by the program; addresses are set only on an empty interface; wifid is told an address only while the interface has it; the address goes when the lease is lost; after the program has ended no address is left if the last flush works.", "quantifier": "all histories of leases, failures of ip and signals", "why_tests_cant": "failures of ip at each step and orders of leases are unbounded", "anchors": ["src/dhcp/dhcp.c: client_lease_fn", "src/dhcp/dhcp.c: manager_new", "src/dhcp/dhcp.c: manager_free"]}
{"id": "C190", "title": "The exit status of miracle-dhcp tells failures", "statement": "miracle-dhcp exits with 0 exactly if it was ended by a signal, and otherwise with the error.", "quantifier": "all histories and failures", "why_tests_cant": "failures of system calls are hard to provoke", "anchors": ["src/dhcp/dhcp.c: main", "src/dhcp/dhcp.c: manager_run", "src/dhcp/dhcp.c: client_no_lease_fn"]}
{"id": "C191", "title": "The server does not lease its own address", "statement": "A server that miracle-dhcp starts never offers or acknowledges its own address to a client.", "quantifier": "all command lines, all histories of packets", "why_tests_cant": "depends on the configuration and on histories of packets of any length", "anchors": ["src/dhcp/dhcp.c: manager_new", "src/dhcp/server.c: find_free_or_expired_nip", "src/dhcp/server.c: check_requested_nip"]}
{"id": "C192", "title": "No name or SSID changes which device an event is about", "statement": "For each of the fourteen kinds of P2P and station events of wpa_supplicant, with any interface, level, name, SSID, passphrase and further words, wifid reads exactly the addresses, the PIN, the interface and the role that wpa_supplicant put into the event.", "quantifier": "all texts of names and SSIDs, all addresses, levels and interfaces", "why_tests_cant": "names and SSIDs are chosen by strangers and may contain quotes, backslashes and whole fields", "anchors": ["src/wifi/wifid-supplicant.c: supplicant_event", "src/wifi/wifid-supplicant.c: supplicant_event_p2p_device_found", "src/wifi/wifid-supplicant.c: supplicant_event_p2p_group_started", "src/wifi/wifid-supplicant.c: supplicant_event_ap_sta_connected", "src/shared/wpas.c: wpas_message_dict_read"]}
{"id": "C193", "title": "The name and WFD subelements of a peer are those of the device", "statement": "After P2P-DEVICE-FOUND or a reply to P2P_PEER the name of the peer is the one of the device, and its WFD subelements are those that the device announced, or the old ones if it announced none.", "quantifier": "all names and lists of further words or lines", "why_tests_cant": "names are chosen by strangers", "anchors": ["src/wifi/wifid-supplicant.c: supplicant_parse_peer", "src/wifi/wifid-supplicant.c: supplicant_p2p_peer_fn"]}
{"id": "C194", "title": "Answers that name no device make no peer", "statement": "A reply to P2P_PEER makes or changes a peer only if it starts with the address of a device, and then that one.", "quantifier": "all replies", "why_tests_cant": "wpa_supplicant is expected to answer well in tests", "anchors": ["src/wifi/wifid-supplicant.c: supplicant_p2p_peer_fn", "src/wifi/wifid-supplicant.c: supplicant_parse_peer"]}
{"id": "C195", "title": "The name and subelements that are set are those that wpa_supplicant gets", "statement": "SET device_name and WFD_SUBELEM_SET carry exactly the value that was asked for, as wpa_supplicant, which knows no quotes, reads them.", "quantifier": "all values", "why_tests_cant": "needs the other side to read the value back", "anchors": ["src/wifi/wifid-supplicant.c: supplicant_set_friendly_name", "src/wifi/wifid-supplicant.c: supplicant_set_wfd_subelements", "src/shared/wpas.c: wpas_message_seal"]}
{"id": "C196", "title": "The words of a command stay words", "statement": "In every history, the text of each command that wifid sends about peers, split at blanks as wpa_supplicant does it, gives exactly the words of the command: command, address, PIN and method. In particular a PIN from D-Bus adds no options.", "quantifier": "all histories of events and calls, all PINs", "why_tests_cant": "PINs are free text over D-Bus and histories are unbounded", "anchors": ["src/wifi/wifid-supplicant.c: supplicant_peer_connect", "src/wifi/wifid-dbus.c: peer_dbus_connect", "src/shared/wpas.c: wpas_message_seal"]}
{"id": "C197", "title": "The messages of the DHCP client are those of RFC 2131", "statement": "Whatever options are requested and set to be sent, DHCPDISCOVER, DHCPREQUEST and DHCPRELEASE are 548 bytes with the BOOTP header of the client (transaction, seconds since the start, flags, own address, hardware address), then message type, requested address, server, maximum size, the list of exactly the requested options, and every value to be sent for which there is room.", "quantifier": "all sequences of set_request, set_send, set_id and clears, all messages, times and transactions", "why_tests_cant": "the set of options is free and the layout of every combination has to be right", "anchors": ["src/dhcp/client.c: send_discover", "src/dhcp/client.c: send_request", "src/dhcp/client.c: send_release", "src/dhcp/client.c: add_request_options", "src/dhcp/client.c: add_send_options", "src/dhcp/client.c: dhcp_attempt_secs", "src/dhcp/client.c: g_dhcp_client_set_request", "src/dhcp/client.c: g_dhcp_client_set_send"]}
{"id": "C198", "title": "The DHCP client and server of the program understand each other", "statement": "Of each message of the client the server reads exactly the type, server, requested address, own address and hardware address that the client means; of each answer the client reads exactly the type, server, lease time and address that the server means; no client with another hardware address or transaction takes the answer for its own.", "quantifier": "all configurations of client and server, all messages and answers", "why_tests_cant": "needs both sides for all contents of packets", "anchors": ["src/dhcp/client.c: send_request", "src/dhcp/client.c: check_package_owner", "src/dhcp/client.c: listener_event", "src/dhcp/server.c: listener_event", "src/dhcp/server.c: init_packet"]}
{"id": "C199", "title": "A client gets an address from the server", "statement": "If the server has an address that is free or expired, a DHCPDISCOVER of the client is answered with an offer; the client requests it, and, whatever the server handles in between that leaves the address alone, is acknowledged: the client reports the address with the server's lease time and the server holds it for the client.", "quantifier": "all configurations, all earlier histories of the server, all messages of others in between", "why_tests_cant": "histories are unbounded and the two sides are tested apart", "anchors": ["src/dhcp/client.c: listener_event", "src/dhcp/client.c: start_request", "src/dhcp/server.c: send_offer", "src/dhcp/server.c: send_ACK"]}
{"id": "C200", "title": "A client can extend and give back its lease", "statement": "A request of a client to extend the lease that it holds, sent to the server or to all, is acknowledged and extends it; a release reaches the server and ends it.", "quantifier": "all addresses, configurations and histories", "why_tests_cant": "leases are extended after half of the lease time only", "anchors": ["src/dhcp/client.c: send_request", "src/dhcp/client.c: send_release", "src/dhcp/server.c: listener_event", "src/dhcp/common.c: dhcp_send_kernel_packet"]}
{"id": "C201", "title": "The end of the supplicant channel is told once", "statement": "If the connection to wpa_supplicant ends, or a request is not answered in time, the user of the channel is told so exactly once. After that nothing is written, no message is delivered and no reply callback runs; a lost connection is always told.", "quantifier": "all histories of calls, sends, cancellations, reads, writes, timeouts and hangups", "why_tests_cant": "what may follow the end is any mix of late events and calls", "anchors": ["src/shared/wpas.c: wpas__hup", "src/shared/wpas.c: wpas_timer_fn", "src/shared/wpas.c: wpas_io_fn"]}
{"id": "C202", "title": "RTSP calls time out only while the bus is attached", "statement": "While a bus is not attached to an event loop - before rtsp_attach_event, after rtsp_detach_event, after the connection was lost - no call times out.", "quantifier": "all histories of calls, replies, writes, cancellations, attaching and detaching", "why_tests_cant": "needs every order of attaching, detaching and completing calls", "anchors": ["src/shared/rtsp.c: rtsp_attach_event", "src/shared/rtsp.c: rtsp_detach_event", "src/shared/rtsp.c: rtsp_hup", "src/shared/rtsp.c: rtsp_timer_fn", "src/shared/rtsp.c: rtsp_unlink_waiting"]}
{"id": "C203", "title": "Links and peers are kept in maps", "statement": "Whatever peers and links come and go, link_find_peer and manager_find_link find exactly the object last added under the text or number and not freed since; an object under a key in use is refused; peer_cnt and link_cnt are the numbers of objects; iterating shows each once. Failing allocations and reused addresses change nothing of that.", "quantifier": "all sequences of adding, finding, freeing and iterating, all keys, all addresses of one magnitude not in use, all allocation failures", "why_tests_cant": "hash collisions, growth and reused addresses make the cases unbounded", "anchors": ["src/shared/shl_htable.c: shl_htable_rehash_str", "src/shared/shl_htable.c: shl_htable_compare_str", "src/shared/shl_htable.h: shl_htable_lookup_str", "src/wifi/wifid-peer.c: peer_new", "src/wifi/wifid-peer.c: peer_free", "src/wifi/wifid-link.c: link_find_peer", "src/wifi/wifid-link.c: link_new", "src/wifi/wifid.c: manager_find_link"]}
{"id": "C204", "title": "Log levels", "statement": "A log message is written if and only if its severity is at most the maximum severity set, or it has none of the nine; the severity can be read off the line whatever the text is; errno is unchanged by logging.", "quantifier": "all settings, texts, places, subsystems, severities and times, all short locales", "why_tests_cant": "texts and times are unbounded", "anchors": ["src/shared/shl_log.c: log__submit", "src/shared/shl_log.c: log_format", "src/shared/shl_log.c: log_submit"]}
{"id": "C205", "title": "A log message is one line", "statement": "A message is written as exactly one line that contains the text, made with the errno of the caller.", "quantifier": "all settings, texts, places, subsystems and severities", "why_tests_cant": "texts are unbounded", "anchors": ["src/shared/shl_log.c: log__submit"]}
{"id": "C206", "title": "Elapsed time of log lines", "statement": "The stamp before log lines and lines of the command line shows the time since log_init_time to the microsecond.", "quantifier": "all times", "why_tests_cant": "needs borrows between seconds and microseconds for all pairs of times", "anchors": ["src/shared/shl_log.c: log__time", "src/shared/shl_log.c: log_init_time", "src/ctl/ctl-cli.c: cli_printf_time_prefix"]}
{"id": "C207", "title": "Date and time of log lines", "statement": "With log-date-time the stamp before log lines is date, time and the nearest millisecond of the moment.", "quantifier": "all times and short locales", "why_tests_cant": "wrong in one half millisecond of each second only", "anchors": ["src/shared/shl_log.c: log__submit", "src/ctl/ctl-cli.c: cli_printf_time_prefix"]}
{"id": "C208", "title": "Socket files of supplicant channels", "statement": "Each open channel of a process has its own socket file; closing a channel or failing to open one leaves no file; no two processes use the same names; files left by dead processes do not prevent opening.", "quantifier": "all histories of opening, failing and closing, all that others do elsewhere meanwhile, all process ids, fewer than 2^64 openings", "why_tests_cant": "histories and the acts of other programs are unbounded", "anchors": ["src/shared/wpas.c: wpas__bind_client_socket", "src/shared/wpas.c: wpas__new_client_socket", "src/shared/wpas.c: wpas__close", "src/shared/wpas.c: wpas_new"]}
{"id": "C209", "title": "Clients reach the server of their name", "statement": "After wpas_create on a path or abstract name a client that opens the same text reaches that server; different texts never name the same server.", "quantifier": "all texts", "why_tests_cant": "needs all pairs of texts", "anchors": ["src/shared/wpas.c: wpas__connect_client_socket", "src/shared/wpas.c: wpas__bind_server_socket"]}
{"id": "C210", "title": "Servers take free names only", "statement": "wpas_create takes a name if no server has it, replaces what dead servers left, and fails without any effect if the name is in use; closing a server removes its own name only.", "quantifier": "all states of the file system and of other servers", "why_tests_cant": "other programs are in any state", "anchors": ["src/shared/wpas.c: wpas__bind_server_socket", "src/shared/wpas.c: wpas__new_server_socket", "src/shared/wpas.c: wpas__close"]}
{"id": "C211", "title": "Messages can be sent to the peers set", "statement": "A message whose peer was set with wpas_message_set_peer to the peer of another message, or to its escaped text, is sent to that peer; a reply goes to the client that sent the request.", "quantifier": "all peers", "why_tests_cant": "the setter is only tested with its getter", "anchors": ["src/shared/wpas.c: wpas_message_set_peer", "src/shared/wpas.c: wpas_message_get_peer", "src/shared/wpas.c: wpas_message_get_escaped_peer", "src/shared/wpas.c: wpas_message_new_reply_for"]}
{"id": "C212", "title": "wpa_supplicant is found in PATH", "statement": "When wifid starts wpa_supplicant it runs the first wpa_supplicant in the directories of PATH that can be run; if there is one it is found.", "quantifier": "all texts of PATH, all file systems", "why_tests_cant": "the file system and PATH are arbitrary", "anchors": ["src/wifi/wifid-supplicant.c: supplicant_find"]}
{"id": "C213", "title": "The DHCP program has its channel", "statement": "A DHCP program has the end of the channel that it was told of in --comm-fd and no other process has that end; wifid has the other end exactly as long as it has the group.", "quantifier": "all histories of groups, failing forks, restarts of wpa_supplicant, ends of programs, other descriptors opened and closed; standard descriptors open at start", "why_tests_cant": "descriptor numbers depend on the whole history", "anchors": ["src/wifi/wifid-supplicant.c: supplicant_group_spawn_dhcp_server", "src/wifi/wifid-supplicant.c: supplicant_group_spawn_dhcp_client", "src/wifi/wifid-supplicant.c: supplicant_group_free"]}
{"id": "C214", "title": "Programs have no channels of others", "statement": "A program that wifid starts has no end of a channel but its own, so that a channel that wifid closed is seen closed at the other end.", "quantifier": "all histories as in C213", "why_tests_cant": "descriptor tables depend on the whole history", "anchors": ["src/wifi/wifid-supplicant.c: supplicant_group_spawn_dhcp_server", "src/wifi/wifid-supplicant.c: supplicant_group_spawn_dhcp_client", "src/wifi/wifid-supplicant.c: supplicant_spawn"]}
{"id": "C215", "title": "Channels do not depend on the standard descriptors", "statement": "A DHCP program has its end of the channel whatever descriptors wifid was started with.", "quantifier": "all descriptor tables at start, all histories as in C213", "why_tests_cant": "tests run with all standard descriptors open", "anchors": ["src/wifi/wifid-supplicant.c: supplicant_group_spawn_dhcp_server", "src/wifi/wifid-supplicant.c: supplicant_group_spawn_dhcp_client"]}
{"id": "C216", "title": "Settings come from the first file", "statement": "The programs take their settings from the first of the six places (.miraclecastrc, .miraclecast/config, .config/miraclecastrc, .config/miraclecast/config in the home directory, then miraclecastrc and miraclecast/config in /etc) whose file can be loaded, and nothing from any other file.", "quantifier": "all file systems and contents, all home directories that do not end in a slash", "why_tests_cant": "which files exist and which are broken is arbitrary", "anchors": ["src/shared/util.h: load_ini_file"]}
{"id": "C217", "title": "Interfaces are found by their whole name", "statement": "if_name_to_index returns the index of the interface that has exactly this name, and an error if there is none.", "quantifier": "all sets of interfaces, all names", "why_tests_cant": "names at the limit of the array are not tested", "anchors": ["src/dhcp/dhcp.c: if_name_to_index"]}
{"id": "C218", "title": "miracle-uibcctl connects where it is told", "statement": "miracle-uibcctl connects to the host and port of its command line; if it cannot it ends with a status other than 0.", "quantifier": "all command lines, all hosts and listeners", "why_tests_cant": "all texts for a port", "anchors": ["src/uibc/miracle-uibcctl.c: main"]}
{"id": "C219", "title": "Dumps show the bytes", "statement": "The dump of a message shows all its bytes in order, eight a row behind their offset, each as eight binary digits.", "quantifier": "all messages", "why_tests_cant": "messages have any length", "anchors": ["src/uibc/miracle-uibcctl.c: binarydump", "src/uibc/miracle-uibcctl.c: hexdump"]}
{"id": "C220", "title": "int2binary stays in its memory", "statement": "int2binary returns the digits of its argument in base 2, at least one more than the padding, and never writes outside of the memory that it allocates.", "quantifier": "all pairs of ints", "why_tests_cant": "2^64 pairs; a write by one byte is not seen", "anchors": ["src/uibc/miracle-uibcctl.c: int2binary"]}
{"id": "C221", "title": "Raw values of RTSP headers", "statement": "A header that is built with a raw value (type character &) is added behind the others as one line of its name and exactly this text; a header takes one value only and no empty one; a raw line outside of a header is sent as it is.", "quantifier": "all messages under construction, all names and texts", "why_tests_cant": "all texts in all messages; the type is not used by the tests outside of reading", "anchors": ["src/shared/rtsp.c: rtsp_message_appendv_basic", "src/shared/rtsp.c: rtsp_header_set_value", "src/shared/rtsp.c: rtsp_message_append_line"]}
{"id": "C222", "title": "The path of a link finds the link", "statement": "A path under /org/freedesktop/miracle/wifi/link is that of a link exactly if the link is shown on the bus and the label of the path is its index in decimal digits; so the path that wifid makes for a link finds this link and no other.", "quantifier": "all sets of links, all labels", "why_tests_cant": "labels are arbitrary texts from any client of the bus", "anchors": ["src/wifi/wifid-dbus.c: link_dbus_find", "src/wifi/wifid-dbus.c: link_dbus_get_path", "src/wifi/wifid.c: manager_find_link_by_label"]}
{"id": "C223", "title": "The path of a peer finds the peer", "statement": "The path that wifid makes for a peer finds exactly this peer of this link. A path with an index finds a peer exactly if its link has the index and its address is the one read from the label; peers and links that are not shown are never found.", "quantifier": "all sets of links and peers, all labels", "why_tests_cant": "labels are arbitrary texts from any client of the bus", "anchors": ["src/wifi/wifid-dbus.c: peer_dbus_find", "src/wifi/wifid-dbus.c: peer_dbus_get_path", "src/wifi/wifid-link.c: link_find_peer_by_label"]}
{"id": "C224", "title": "The path of an address finds a peer", "statement": "A path under .../peer that is an address without an index finds a peer with this address if any link shows one.", "quantifier": "all sets of links and peers, all labels without @", "why_tests_cant": "needs several links that know the same peer in different states", "anchors": ["src/wifi/wifid-dbus.c: peer_dbus_find"]}
{"id": "C225", "title": "wifid lists its objects", "statement": "manager_dbus_enumerate returns the paths of all shown links and peers and the path of the manager, each once, or an error if memory is short, and never writes outside of its array.", "quantifier": "all sets of links and peers, all failures of allocations", "why_tests_cant": "failures of allocations are not tested; any number of objects", "anchors": ["src/wifi/wifid-dbus.c: manager_dbus_enumerate"]}
{"id": "C226", "title": "The exit status of wifid tells failures", "statement": "miracle-wifid runs only if every call that it needs succeeds, among them that it gets its name on the bus; else it ends with the errno of the first that fails and calls nothing after it. Status 0 means that it was asked for help or its version, or was ended by SIGINT, SIGTERM, SIGQUIT or SIGHUP; SIGPIPE and SIGCHLD do not end it.", "quantifier": "all results of the calls, all sequences of signals", "why_tests_cant": "every call may fail in its own way", "anchors": ["src/wifi/wifid.c: main, manager_new, manager_startup, manager_signal_fn", "src/wifi/wifid-dbus.c: manager_dbus_connect"]}
{"id": "C227", "title": "Devices that are there at the start become links", "statement": "After the start wifid has a link for every wireless device that it should use and that is there.", "quantifier": "all lists of devices, of which some may vanish meanwhile", "why_tests_cant": "needs a device that is removed between two calls", "anchors": ["src/wifi/wifid.c: manager_read_links, manager_add_udev_link"]}
{"id": "C228", "title": "wifid takes the name of the machine", "statement": "manager_read_name has defined behaviour for every answer of hostname1; the friendly name is the name of the machine if there is one, else what it was.", "quantifier": "all answers, all log levels", "why_tests_cant": "an answer that is empty is not tested", "anchors": ["src/wifi/wifid.c: manager_read_name"]}
{"id": "C229", "title": "What wifid tells of a peer reaches the programs", "statement": "If wifid tells that a peer asks for a provisioning method, wants to connect or could not be connected, every control program that follows wifid gets one callback, for the peer with that address on that link, with the same method, PIN or reason. Peers that are not public are not told of; signals of unknown peers and other messages cause no callback.", "quantifier": "all histories of wifid, all points at which a program starts to follow, all messages", "why_tests_cant": "needs both programs and a bus, and peers that come and go", "anchors": ["src/wifi/wifid-dbus.c: peer_dbus_provision_discovery, peer_dbus_go_neg_request, peer_dbus_formation_failure", "src/wifi/wifid-peer.c: peer_supplicant_provision_discovery, peer_supplicant_go_neg_request, peer_supplicant_formation_failure", "src/ctl/ctl-wifi.c: ctl_wifi_peer_fn"]}
{"id": "C230", "title": "What the user sees of the signals of peers", "statement": "For each such callback the interactive miracle-wifictl prints one line with the peer, the method and the PIN, or the reason, but none for requests to connect; miracle-sinkctl prints such a line if the link is the one that runs and the peer has WFD subelements, and nothing else.", "quantifier": "all messages, all states of the programs", "why_tests_cant": "terminal output is not tested", "anchors": ["src/ctl/wifictl.c: ctl_fn_peer_provision_discovery, ctl_fn_peer_go_neg_request, ctl_fn_peer_formation_failure", "src/ctl/sinkctl.c: ctl_fn_peer_provision_discovery, ctl_fn_peer_go_neg_request, ctl_fn_peer_formation_failure"]}
{"id": "C231", "title": "Addresses are set and flushed by running ip", "statement": "flush_if_addr and add_if_addr return 0 if and only if the given program could be run with the words addr flush dev and the interface, or addr add, the address, dev and the interface, and exited with status 0; else they return an error. Nothing else is executed, and the process is waited for.", "quantifier": "all results of fork, execve and waitpid, all ways a program ends, all texts", "why_tests_cant": "needs failing system calls and killed programs", "anchors": ["src/dhcp/dhcp.c: flush_if_addr, add_if_addr"]}
{"id": "C232", "title": "Several values of an RTSP message are read as the message has them", "statement": "rtsp_message_readv has defined behaviour wherever the reader stands, and changes nothing but the place of the reader. It gives the tokens of the first header of each name in order, the text of a header, and enters and leaves headers and the body as the types say; if this is not possible it fails and the reader stands outside of all headers and of the body.", "quantifier": "all sealed messages, all places, all sequences of types", "why_tests_cant": "the sequences of types are unbounded, tests read a few fixed ones", "anchors": ["src/shared/rtsp.c: rtsp_message_readv, rtsp_message_readv_basic, rtsp_message_enter_header, rtsp_message_exit_header, rtsp_message_enter_body, rtsp_message_exit_body"]}
{"id": "C233", "title": "Skipping over values and going back", "statement": "rtsp_message_skip succeeds if and only if the values could be read, and leaves the reader where reading them would; after rtsp_message_rewind the tokens of the header are read again from the first, or the reader stands outside of all headers and of the body.", "quantifier": "all sealed messages, all places, all sequences of types", "why_tests_cant": "rtsp_message_skip has no test", "anchors": ["src/shared/rtsp.c: rtsp_message_skip, rtsp_message_skip_basic, rtsp_message_rewind"]}
{"id": "C234", "title": "Probes and announcements are ARP requests to all machines", "statement": "A probe is a whole ARP request for Ethernet and IPv4 from the hardware address of the interface with sender address 0 asking for the address, an announcement one with the address as sender and target; both go to the broadcast address of the interface, once per call. Whatever call fails the socket is closed and the error of that call is returned. A client that receives such a packet takes it for what it is. The socket to listen on is bound to ARP packets of the interface, or closed.", "quantifier": "all hardware addresses, IPv4 addresses and interfaces, all results of socket, bind and sendto", "why_tests_cant": "sending needs a raw socket and root rights, and all addresses cannot be tried", "anchors": ["src/dhcp/ipv4ll.c: ipv4ll_send_arp_packet, ipv4ll_arp_socket", "src/dhcp/client.c: send_probe_packet, send_announce_packet"]}
{"id": "C235", "title": "Only ARP packets of other machines that name the address count as conflicts", "statement": "A received packet counts as a conflict if and only if it is a whole ARP request or reply for Ethernet and IPv4, sent by another machine, whose sender or target address is the requested one.", "quantifier": "all received byte strings, all requested addresses", "why_tests_cant": "the byte strings are unbounded in number", "anchors": ["src/dhcp/client.c: ipv4ll_recv_arp_packet"]}
{"id": "C236", "title": "A DHCP server can be started, stopped and shared safely, and leaves nothing behind", "statement": "As long as functions are called by holders of references only, every sequence of start, stop, ref and unref, with errors on the socket and other sources of the main loop coming and going, has defined behaviour; the server is freed exactly with its last reference; it watches at most one socket, every other socket it opened is closed once, and after its end none is open or watched. g_dhcp_server_new gives either an error and no server or a server with one reference.", "quantifier": "all sequences of calls and events, all results of opening the socket", "why_tests_cant": "the sequences are unbounded", "anchors": ["src/dhcp/server.c: g_dhcp_server_new, g_dhcp_server_start, g_dhcp_server_stop, g_dhcp_server_ref, g_dhcp_server_unref, listener_event"]}
{"id": "C237", "title": "A DHCP server that was started listens", "statement": "Whenever g_dhcp_server_start returns 0 the server watches a socket.", "quantifier": "all sequences of calls and events before", "why_tests_cant": "errors on sockets are rare and hard to bring about", "anchors": ["src/dhcp/server.c: g_dhcp_server_start, listener_event"]}
{"id": "C238", "title": "A DHCP server removes only sources that exist", "statement": "No call removes a source of the main loop that does not exist (which GLib reports as a critical error).", "quantifier": "all sequences of calls and events", "why_tests_cant": "the sequences are unbounded", "anchors": ["src/dhcp/server.c: g_dhcp_server_new, g_dhcp_server_stop", "src/dhcp/dhcp.c: manager_free"]}
