{"id": "C01", "title": "Ordered index behaves as a map", "statement": "After any sequence of insertions and deletions on the ordered index (used for timers, mounted files and pool blocks), looking up a key returns exactly the value of the most recent insertion of that key that found it absent and has not been deleted since; inserting a key that is present leaves the stored value unchanged and returns the existing entry; every other key is unaffected; the reported element count equals the number of distinct keys present.", "quantifier": "every finite history of insert/delete/lookup operations with arbitrary keys of a total order", "why_tests_cant": "Rebalancing code has many shape-dependent branches; finitely many test trees cannot cover all shapes reachable by unbounded histories.", "anchors": ["src/rbtree.c: fly_rb_tree_insert, fly_rb_delete, fly_rb_node_from_key, fly_rb_rotate_left, fly_rb_rotate_right, __fly_rb_delete_rebalance"]}
{"id": "C02", "title": "Ordered index stays sorted and balanced", "statement": "After any history of insertions and deletions the ordered index is a binary search tree whose root is black, no red node has a red child, and all root-to-leaf paths contain the same number of black nodes; hence lookup visits at most 2*log2(n+1) nodes.", "quantifier": "every finite history of insert/delete operations", "why_tests_cant": "A balance violation only becomes visible as a slow path or a mis-lookup for particular deep shapes.", "anchors": ["src/rbtree.c: fly_rb_tree_insert, __fly_rb_delete_rebalance, fly_rb_delete"]}
{"id": "C03", "title": "Index handles stay valid", "statement": "Whoever inserted an element with a registered handle can, at any later time before deleting it, use the handle to reach the node that holds exactly this element, no matter which other elements were inserted or deleted in between; deleting through the handle removes exactly that element.", "quantifier": "every history of inserts/deletes interleaved over elements with registered handles", "why_tests_cant": "Deletion may move another element's payload into a different node, so stale handles appear only for particular tree shapes and orders.", "anchors": ["src/rbtree.c: fly_rb_delete (successor copy and node_data update)", "src/event.c: fly_event_register", "src/mount.c: fly_parts_file_add"]}
{"id": "C04", "title": "Intrusive lists and queues keep order and count", "statement": "For every sequence of add-at-head, add-at-tail and remove operations, traversing an intrusive list forwards yields exactly the abstract sequence, traversing backwards yields its reverse, and the queue's element counter equals its length; removing an element leaves the others in order.", "quantifier": "every operation sequence on a list or queue whose elements are distinct", "why_tests_cant": "Link corruption depends on position (first, last, middle, only) and on histories of removals; unit tests only exercise a few.", "anchors": ["src/bllist.h: fly_bllist_add_head, fly_bllist_add_tail, fly_bllist_remove", "src/queue.h: fly_queue_push, fly_queue_pop, fly_queue_remove"]}
{"id": "C05", "title": "Memory pools release every block exactly once", "statement": "Over any history of allocations, individual frees and pool deletions, each allocated block is returned to the system at most once, freeing an address the pool does not own changes nothing, deleting a pool releases all and only its own outstanding blocks, and blocks of other pools stay allocated.", "quantifier": "every interleaving of allocate/free/delete-pool operations over any number of pools", "why_tests_cant": "Double frees and leaks depend on unbounded operation histories.", "anchors": ["src/alloc.c: fly_pballoc, fly_pbfree, fly_delete_pool, fly_release_all_pool"]}
{"id": "C06", "title": "Receive buffer is a faithful byte stream", "statement": "For any sequence of received chunks and consumed prefixes, the bytes readable from the chained receive buffer are exactly the received bytes minus the consumed ones, in order, independent of how the network split them into chunks.", "quantifier": "every sequence of append/consume operations with arbitrary chunk sizes", "why_tests_cant": "Chunk boundaries are chosen by the network; the chain-crossing arithmetic has boundary cases at every multiple of the chain size.", "anchors": ["src/buffer.c: fly_update_buffer, fly_buffer_add_chain, fly_buffer_chain_release_from_length"]}
{"id": "C07", "title": "Receive buffer never exceeds its configured capacity", "statement": "The number of chain blocks in a connection's receive buffer never exceeds the configured maximum, an append is refused exactly when it would need one more block than allowed, and a refused append is reported as the limit error rather than silently dropping bytes.", "quantifier": "every append sequence and every configuration (block size, block limit)", "why_tests_cant": "Off-by-one at the limit only shows for inputs of exactly the capacity.", "anchors": ["src/buffer.c: fly_update_buffer, fly_buffer_add_chain", "src/connect.c: FLY_CONNECT_BUFFER_CHAIN_MAX"]}
{"id": "C08", "title": "Reading across block boundaries equals reading contiguous memory", "statement": "Copying n bytes out of the receive buffer from any offset yields exactly the n stream bytes at that offset, wherever block boundaries fall, whenever n bytes are available.", "quantifier": "every buffer content, block size, start offset and length", "why_tests_cant": "Depends on alignment of offset and block size.", "anchors": ["src/buffer.c: fly_buffer_memcpy, fly_update_chain"]}
{"id": "C09", "title": "Searching the receive buffer finds a delimiter iff present", "statement": "Searching the receive buffer for a string succeeds iff the string occurs in the unread bytes, and returns its first occurrence.", "quantifier": "every buffer content and search string", "why_tests_cant": "Failures need self-overlapping patterns at particular positions.", "anchors": ["src/buffer.c: fly_buffer_strstr"]}
{"id": "C10", "title": "Well-formed request lines are decoded exactly", "statement": "For every supported method, every origin-form target built from path characters with an optional query, and every supported version, the request line is accepted and the handler sees exactly that method, that path, that query and that version.", "quantifier": "all methods x all syntactically valid paths and queries x supported versions", "why_tests_cant": "The set of targets is infinite; tests sample a handful.", "anchors": ["src/request.c: __fly_request_operation, __fly_parse_reqline"]}
{"id": "C11", "title": "Only well-formed request lines are accepted", "statement": "Whenever a request line is accepted it has the shape METHOD SP target SP HTTP/version with a supported method and version.", "quantifier": "all byte strings", "why_tests_cant": "Negative space of a grammar is infinite.", "anchors": ["src/request.c: __fly_parse_reqline"]}
{"id": "C12", "title": "Request line parsing is independent of segmentation", "statement": "If a request line is accepted when it arrives at once, then every proper prefix that ends before the line terminator is reported as incomplete (never as an error), so splitting the line over several packets gives the same result.", "quantifier": "all accepted request lines and all split points", "why_tests_cant": "Segmentation is chosen by the network.", "anchors": ["src/request.c: __fly_parse_reqline, fly_request_event_handler"]}
{"id": "C13", "title": "All request-target forms of the HTTP grammar are supported", "statement": "Requests using the absolute form (required for proxies) and the asterisk form with OPTIONS are accepted.", "quantifier": "all absolute-form and asterisk-form targets", "why_tests_cant": "Infinite family of targets.", "anchors": ["src/request.c: __fly_parse_reqline (absolute/asterisk states)", "src/scheme.c: is_fly_scheme"]}
{"id": "C14", "title": "Overlong request lines are answered 414", "statement": "A request line longer than the advertised limit is rejected with 414 and never stored or parsed further; lines within the limit are never rejected for their length.", "quantifier": "all line lengths", "why_tests_cant": "Boundary depends on exact length.", "anchors": ["src/request.c: __fly_request_operation, fly_request_event_handler"]}
{"id": "C15", "title": "Header fields are delivered completely and in order", "statement": "For every sequence of well-formed header fields, the handler sees exactly the same sequence of (lower-cased) names and values.", "quantifier": "all sequences of well-formed header lines", "why_tests_cant": "Infinite input space and combinations of optional whitespace.", "anchors": ["src/request.c: __fly_parse_header, __fly_parse_header_line", "src/header.c: fly_header_addb"]}
{"id": "C16", "title": "Header name lookup is case-insensitive", "statement": "Looking up a request header by name finds it whatever letter case the client used.", "quantifier": "all header names and all case variants", "why_tests_cant": "2^n case variants per name.", "anchors": ["src/header.c: fly_connection, fly_content_length, fly_header_addb"]}
{"id": "C17", "title": "Header list edits have map-like effects", "statement": "Add-if-absent never changes an existing header; add-or-replace leaves exactly the new value for an existing name; delete removes one entry of the given name and nothing else; the header count always equals the number of entries.", "quantifier": "every sequence of header edits", "why_tests_cant": "Histories are unbounded.", "anchors": ["src/header.c: fly_header_add, fly_header_add_ifno, fly_header_addmodify, fly_header_delete"]}
{"id": "C18", "title": "Content-Length framing", "statement": "For a request with Content-Length n (0 <= n <= limit) exactly n bytes following the header block are delivered as the body, and the bytes after them are left for the next request; a request whose declared length is over the limit is answered 413.", "quantifier": "all header/body/pipelined byte streams and all n", "why_tests_cant": "Depends on segmentation and on n.", "anchors": ["src/request.c: fly_request_event_handler", "src/header.c: fly_content_length", "src/body.c"]}
{"id": "C19", "title": "Request outcome is a function of the documented checks, in order", "statement": "The status of the answer to a complete request is determined by the first failing check in the order request line, header syntax, Accept-* syntax/acceptability, body length, content coding, route, static file (405 for a non-GET method on an existing file, 404 otherwise).", "quantifier": "all combinations of check outcomes", "why_tests_cant": "Combinatorial explosion of check outcomes and orders.", "anchors": ["src/request.c: fly_request_event_handler"]}
{"id": "C20", "title": "Connection persistence", "statement": "After a response the connection is kept open iff the response's Connection header says keep-alive; the Connection header of a response is derived from the request's Connection header; protocol-level failures always close.", "quantifier": "all request/response header combinations", "why_tests_cant": "Combinatorial.", "anchors": ["src/response.c: fly_after_response", "src/header.c: fly_add_connection, fly_connection"]}
{"id": "C21", "title": "Static routes: first registered exact match wins", "statement": "A request is dispatched to the first registered route whose method equals the request method and whose path equals the request path; if there is none (and no parameter route matches) no handler runs.", "quantifier": "all route tables and requests", "why_tests_cant": "Route tables and paths are unbounded.", "anchors": ["src/route.c: fly_found_route, fly_register_route"]}
{"id": "C22", "title": "Parameter routes respect the method", "statement": "A route with path parameters is only selected for requests with the registered method.", "quantifier": "all route tables and requests", "why_tests_cant": "Needs combinations of routes.", "anchors": ["src/route.c: fly_found_route, fly_match_param_uri"]}
{"id": "C23", "title": "Path parameters capture exactly the path segment", "statement": "If a request path matches a parameter route, every parameter receives exactly the text of its segment; paths that do not have the route's shape do not match.", "quantifier": "all patterns and paths", "why_tests_cant": "Infinite patterns and paths.", "anchors": ["src/route.c: fly_match_param_uri, fly_register_route"]}
{"id": "C24", "title": "Route registration decodes the pattern", "statement": "Registering a pattern with {name: type} succeeds iff it is well-formed and records the declared name and type of each parameter.", "quantifier": "all patterns", "why_tests_cant": "Infinite language.", "anchors": ["src/route.c: fly_rr_parse_path_param, fly_register_route"]}
{"id": "C25", "title": "Allow header lists exactly the supported methods", "statement": "A 405 answer lists exactly the methods for which the resource has a handler, each once.", "quantifier": "all route tables and paths", "why_tests_cant": "Unbounded tables.", "anchors": ["src/route.c: fly_valid_method", "src/response.c: fly_405_event, fly_405_response"]}
{"id": "C26", "title": "Method, scheme and version names are recognised exactly", "statement": "A method, scheme or version token is recognised iff it equals one of the supported names.", "quantifier": "all byte strings", "why_tests_cant": "Prefix/extension confusions are infinite.", "anchors": ["src/method.c", "src/scheme.c", "src/version.c"]}
{"id": "C27", "title": "Static file lookup returns the registered file", "statement": "Looking up a request path yields the mounted file whose relative path equals the request path without its leading slashes; the empty path yields the index file; a path that names no mounted file yields nothing (so no path outside the mounted tree is ever served).", "quantifier": "all mounted file sets and request paths", "why_tests_cant": "Unbounded trees and paths; path traversal strings are infinite.", "anchors": ["src/mount.c: fly_found_content_from_path, __fly_mount_search_cmp"]}
{"id": "C28", "title": "File name ordering is a total order", "statement": "The comparison used to index mounted files is reflexive, antisymmetric, transitive and total, and reports equality only for identical names.", "quantifier": "all pairs/triples of file names", "why_tests_cant": "Violations need particular prefix-related names.", "anchors": ["src/mount.c: __fly_mount_search_cmp, fly_found_content_from_path"]}
{"id": "C29", "title": "Directory index", "statement": "Requesting a directory that contains the index file serves that index file.", "quantifier": "all mounted trees", "why_tests_cant": "Unbounded trees.", "anchors": ["src/mount.c: fly_found_content_from_path", "src/request.c: fly_request_event_handler"]}
{"id": "C30", "title": "File accounting", "statement": "The number of files reported for a mount point and in total always equals the number of files registered and not removed, and never exceeds the configured maximum.", "quantifier": "every history of file additions, removals, mounts and unmounts", "why_tests_cant": "Histories are unbounded.", "anchors": ["src/mount.c: fly_parts_file_add, fly_parts_file_remove, fly_mount, fly_unmount"]}
{"id": "C31", "title": "Removing a directory removes exactly its files", "statement": "When a watched directory disappears exactly the registered files below it are dropped.", "quantifier": "all registered name sets and directory names", "why_tests_cant": "Needs names that are prefixes of each other.", "anchors": ["src/mount.c: fly_inotify_rm_watch"]}
{"id": "C32", "title": "Mount numbers identify mount points", "statement": "At any time two different mount points have different mount numbers.", "quantifier": "every history of mount/unmount", "why_tests_cant": "Histories are unbounded.", "anchors": ["src/mount.c: fly_mount, fly_unmount, __fly_mount_add"]}
{"id": "C33", "title": "Relative paths round-trip", "statement": "For a file below a mount point, stripping the mount point from the full path and joining it again yields the same file; the result never depends on a trailing slash of the mount point.", "quantifier": "all mount points and relative paths", "why_tests_cant": "Infinite paths.", "anchors": ["src/mount.c: __fly_path_cpy_with_mp, fly_join_path"]}
{"id": "C34", "title": "ETag identifies content", "statement": "Files with different MD5 input get ETags that differ whenever the digests differ.", "quantifier": "all digests", "why_tests_cant": "2^128 digests.", "anchors": ["src/cache.c: fly_hash_from_parts_file_path, __fly_hash_from_parts_file, __fly_md5_from_hash"]}
{"id": "C35", "title": "MIME type from file name", "statement": "The content type of a file is determined by the characters after the last dot of its name: known extension -> its type, otherwise the default type.", "quantifier": "all file names", "why_tests_cant": "Infinite names.", "anchors": ["src/mime.c: fly_mime_type_from_path_name"]}
{"id": "C36", "title": "Accept-Encoding values are decoded", "statement": "For every list of known codings with optional quality values the parser yields exactly the listed codings with their quality (1 when absent) in order.", "quantifier": "all Accept-Encoding values", "why_tests_cant": "Infinite language.", "anchors": ["src/encode.c: __fly_parse_ae, __fly_parse_accept_encoding, __fly_quality_value_from_str"]}
{"id": "C37", "title": "A chosen content coding is acceptable", "statement": "If a coding is chosen its quality value is positive and exactly one is chosen; the request is answered 406 iff no coding has positive quality.", "quantifier": "all decoded Accept-Encoding lists", "why_tests_cant": "Unbounded lists.", "anchors": ["src/encode.c: __fly_decide_encoding"]}
{"id": "C38", "title": "The most preferred coding is chosen", "statement": "The chosen coding has the maximal quality value.", "quantifier": "all decoded Accept-Encoding lists", "why_tests_cant": "Depends on order and priorities.", "anchors": ["src/encode.c: __fly_decide_encoding"]}
{"id": "C39", "title": "A coding refused by the client is never used", "statement": "A response is never sent with a content coding whose quality value is 0.", "quantifier": "all Accept-Encoding lists and all files", "why_tests_cant": "Needs combinations with pre-encoded files.", "anchors": ["src/encode.c: fly_encoding_matching", "src/response.c: fly_response_event"]}
{"id": "C40", "title": "Accept-Charset / Accept-Language decoding", "statement": "Well-formed values decode to the listed names with their quality; the request is answered 406 iff every listed quality is 0 and 400 iff the value is malformed.", "quantifier": "all header values", "why_tests_cant": "Infinite language.", "anchors": ["src/charset.c", "src/lang.c"]}
{"id": "C41", "title": "Accept decoding", "statement": "Every well-formed Accept value (media ranges with optional quality between 0 and 1) is accepted and decoded to its ranges.", "quantifier": "all Accept header values", "why_tests_cant": "Infinite language.", "anchors": ["src/mime.c: __fly_accept_mime_parse, __fly_accept_parse"]}
{"id": "C42", "title": "HTTP/2 frame header round-trip", "statement": "Reading a frame header written by the server yields the same length, type, flags and stream identifier, for all representable values, and the reserved bit is ignored on input.", "quantifier": "all 24-bit lengths, 8-bit types and flags, 31-bit stream ids", "why_tests_cant": "2^71 combinations.", "anchors": ["src/v2.c: fly_fh_setting, fly_hv2_length_from_frame_header, fly_hv2_sid_from_frame_header"]}
{"id": "C43", "title": "HTTP/2 SETTINGS payload round-trip", "statement": "A SETTINGS frame emitted by the server carries each requested identifier/value pair.", "quantifier": "all lists of settings", "why_tests_cant": "Unbounded lists.", "anchors": ["src/v2.c: fly_settings_frame_payload_set, fly_hv2_peer_settings"]}
{"id": "C44", "title": "Peer SETTINGS are validated and applied in order", "statement": "For every received SETTINGS payload, parameters are applied in order of appearance, unknown ones are ignored, and out-of-range ENABLE_PUSH / INITIAL_WINDOW_SIZE / MAX_FRAME_SIZE values produce the mandated connection error.", "quantifier": "all payloads and prior states", "why_tests_cant": "Unbounded payloads.", "anchors": ["src/v2.c: fly_hv2_peer_settings"]}
{"id": "C45", "title": "HTTP/2 stream identifiers", "statement": "A client stream is only opened with an odd identifier greater than all identifiers opened before and while the concurrency limit is not exceeded; the set of open streams therefore never contains duplicates.", "quantifier": "every history of stream openings/closings", "why_tests_cant": "Unbounded histories.", "anchors": ["src/v2.c: fly_hv2_create_stream, fly_hv2_stream_search_from_sid, fly_hv2_close_stream"]}
{"id": "C46", "title": "HTTP/2 stream life cycle", "statement": "Stream states only change along the transitions of the HTTP/2 life cycle; a closed stream never becomes open again; a request is answered at most once per stream.", "quantifier": "every sequence of received frames", "why_tests_cant": "Unbounded frame sequences.", "anchors": ["src/v2.c: fly_hv2_request_event_handler"]}
{"id": "C47", "title": "HTTP/2 send flow control", "statement": "The number of DATA bytes sent never exceeds the credit granted by the peer on the stream and on the connection.", "quantifier": "every sequence of WINDOW_UPDATE frames and responses", "why_tests_cant": "Unbounded histories.", "anchors": ["src/v2.c: fly_send_data_frame, fly_hv2_request_event_handler, __fly_hv2_add_yet_send_frame"]}
{"id": "C48", "title": "HTTP/2 window increments never overflow", "statement": "A flow-control window never exceeds 2^31-1: an increment that would exceed it produces a flow-control error; a zero increment produces the mandated protocol error on the right scope.", "quantifier": "every sequence of WINDOW_UPDATE frames", "why_tests_cant": "Needs large sums.", "anchors": ["src/v2.c: fly_hv2_request_event_handler, fly_send_window_update_frame"]}
{"id": "C49", "title": "Coalescing queued WINDOW_UPDATE frames preserves credit", "statement": "Merging queued window updates never loses or invents credit, and never emits an increment of zero or above 2^31-1.", "quantifier": "every sequence of window update requests", "why_tests_cant": "Unbounded histories.", "anchors": ["src/v2.c: fly_send_window_update_frame"]}
{"id": "C50", "title": "HTTP/2 header block fragmentation", "statement": "A response header block is emitted as one HEADERS frame followed by CONTINUATION frames, each within the frame size limit, only the last flagged END_HEADERS, whose payloads concatenate to the block.", "quantifier": "all block lengths and limits", "why_tests_cant": "Boundary at multiples of the limit.", "anchors": ["src/v2.c: fly_send_headers_frame, __fly_send_headers_frame"]}
{"id": "C51", "title": "HTTP/2 padding is not part of the content", "statement": "Padding bytes of DATA and HEADERS frames never reach the application.", "quantifier": "all padded frames", "why_tests_cant": "All pad lengths and payloads.", "anchors": ["src/v2.c: fly_hv2_request_event_handler (DATA, HEADERS)"]}
{"id": "C52", "title": "HTTP/2 control payloads round-trip", "statement": "RST_STREAM, GOAWAY, PING and WINDOW_UPDATE payloads written by the server decode (big-endian, network order) to the values given, and multi-byte fields are decoded the same wherever receive-block boundaries fall.", "quantifier": "all field values and buffer alignments", "why_tests_cant": "2^32 values x alignments.", "anchors": ["src/v2.c: fly_send_rst_stream_frame, __fly_goaway_payload, fly_send_ping_frame, __fly_hv2_31bit, __fly_hv2_32bit"]}
{"id": "C53", "title": "HPACK integer decoding", "statement": "Decoding the RFC 7541 encoding of any integer that fits 32 bits, with any prefix size, yields that integer and consumes exactly its encoding.", "quantifier": "all integers below 2^32 and prefix sizes", "why_tests_cant": "2^32 values.", "anchors": ["src/v2.c: fly_hv2_integer"]}
{"id": "C54", "title": "HPACK integer encoding", "statement": "Encoding an integer and decoding it with an RFC 7541 decoder yields the integer.", "quantifier": "all integers and prefix sizes", "why_tests_cant": "2^32 values.", "anchors": ["src/v2.c: fly_hv2_set_integer"]}
{"id": "C55", "title": "HPACK dynamic table", "statement": "After any sequence of insertions and size changes the table holds the longest suffix of inserted entries whose total size (name+value+32 each) fits the maximum, newest first, and index i resolves to the same entry as in RFC 7541.", "quantifier": "every history of insertions and size updates", "why_tests_cant": "Unbounded histories.", "anchors": ["src/v2.c: fly_hv2_dynamic_table_add_entry, fly_hv2_dynamic_table_remove_entry"]}
{"id": "C56", "title": "HPACK static table conforms", "statement": "Each index 1..61 resolves to the name and value of RFC 7541 Appendix A.", "quantifier": "all 61 indices (finite)", "why_tests_cant": "Finite, but every entry must be right.", "anchors": ["src/v2.c: static_table"]}
{"id": "C57", "title": "Huffman decoding inverts the RFC code", "statement": "Decoding the RFC 7541 Huffman code of any byte string yields that byte string.", "quantifier": "all byte strings", "why_tests_cant": "Infinite strings; padding depends on total bit length.", "anchors": ["src/v2.c: fly_hv2_huffman_decode, huffman_codes"]}
{"id": "C58", "title": "HPACK field representations are distinguished by their leading bits", "statement": "Every first byte of a header field representation is classified as RFC 7541 section 6 prescribes.", "quantifier": "all 256 first bytes (finite) and following integers", "why_tests_cant": "Interacts with literal/indexed names.", "anchors": ["src/v2.c: fly_hv2_parse_headers, fly_hv2_is_header_literal, fly_hv2_add_header_by_name, fly_hv2_add_header_by_indexname"]}
{"id": "C59", "title": "Response header blocks decode to the response headers", "statement": "Decoding, with an RFC 7541 decoder, the header block produced for a response yields the response's header list.", "quantifier": "all header lists", "why_tests_cant": "Infinite lists.", "anchors": ["src/v2.c: fly_send_headers_frame, fly_hv2_set_integer, __fly_hv2_set_huffman_bit"]}
{"id": "C60", "title": "Timers fire in order and never early", "statement": "A timer never expires before its deadline; at any time the loop waits for the earliest deadline among registered timers.", "quantifier": "every set of registered timers and every clock value", "why_tests_cant": "Timing dependent.", "anchors": ["src/event.c: __fly_expired_from_rbtree, __fly_nearest_event, fly_milli_diff_time_from_now"]}
{"id": "C61", "title": "Restarting a timer keeps the index ordered", "statement": "Re-arming a registered timer keeps all timers findable in deadline order.", "quantifier": "every history of register/restart/unregister", "why_tests_cant": "Needs particular interleavings of deadlines.", "anchors": ["src/event.c: fly_timeout_restart, fly_event_register"]}
{"id": "C62", "title": "Time arithmetic", "statement": "Sums and differences of (seconds, microseconds) pairs denote the exact sum/difference and are normalised; the wait time handed to the poller is within one millisecond of the true remaining time and never negative for a future deadline.", "quantifier": "all time values", "why_tests_cant": "Carry/borrow boundaries.", "anchors": ["src/event.c: fly_sub_time, fly_cmp_time, fly_msec, __fly_add_time_from_now"]}
{"id": "C63", "title": "Serialized response layout", "statement": "The bytes handed to the socket are status line, header lines 'name: value', an empty line and the body, in this order and nothing else; the buffer is exactly as long as its contents.", "quantifier": "all status codes, header lists and bodies", "why_tests_cant": "Length arithmetic over unbounded lists.", "anchors": ["src/response.c: fly_response_set_send_ptr"]}
{"id": "C64", "title": "Responses survive short writes", "statement": "The client receives exactly the serialized response, however the kernel splits the writes.", "quantifier": "all responses and all sequences of accepted write sizes / would-block results", "why_tests_cant": "Write sizes are chosen by the kernel.", "anchors": ["src/response.c: fly_response_send"]}
{"id": "C65", "title": "Content-Length equals the body length", "statement": "The Content-Length header of a response equals the number of body bytes sent.", "quantifier": "all handler results", "why_tests_cant": "All body kinds and encodings.", "anchors": ["src/response.c: fly_response_event", "src/header.c: fly_add_content_length, fly_add_content_length_from_stat"]}
{"id": "C66", "title": "Status codes round-trip", "statement": "A numeric status code chosen by the application is the one sent on the wire together with its standard reason phrase.", "quantifier": "all supported status codes (finite) and all other integers", "why_tests_cant": "Table errors.", "anchors": ["src/response.c: responses, fly_status_code_from_long, fly_status_code_str_from_type"]}
{"id": "C67", "title": "Response size limit", "statement": "A handler body longer than the configured maximum is answered 413 and never sent; a body within the limit is never refused for its size.", "quantifier": "all bodies and limits", "why_tests_cant": "Boundary.", "anchors": ["src/pyserver.c: pyfly_route_handler", "src/response.c: fly_respf"]}
{"id": "C68", "title": "Worker pool size", "statement": "The master's worker count always equals the number of tracked workers, never exceeds the configured maximum and, after the master has handled the death of workers, is again min(requested, maximum).", "quantifier": "every sequence of worker exits/crashes/signals", "why_tests_cant": "Unbounded histories of process events.", "anchors": ["src/master.c: __fly_master_worker_spawn, __fly_workers_rebalance, fly_remove_worker, fly_add_worker, __fly_sigchld"]}
{"id": "C69", "title": "Every dead worker is replaced", "statement": "Whatever the timing of worker deaths (including several at once and stop/continue events), eventually exactly the requested number of live workers exists.", "quantifier": "every schedule of deaths, stops, and signal deliveries", "why_tests_cant": "Signal coalescing depends on timing.", "anchors": ["src/master.c: fly_master_signals, __fly_sigchld, fly_remove_worker"]}
{"id": "C70", "title": "Fatal worker errors stop the service", "statement": "When a worker reports an emergency or critical failure, all workers are signalled and none is respawned.", "quantifier": "every reachable master state", "why_tests_cant": "Histories.", "anchors": ["src/master.c: __fly_sigchld, fly_kill_workers"]}
{"id": "C71", "title": "Configuration files are read as written", "statement": "A configuration file made of comments, blank lines and known 'name = value' lines sets exactly these options to these values (last one wins), leaving the others at their default; unknown names and lines without value are rejected.", "quantifier": "all configuration files", "why_tests_cant": "Infinite language.", "anchors": ["src/conf.c: fly_parse_config_file, fly_set_config_value"]}
{"id": "C72", "title": "The last configuration line needs no newline", "statement": "A file whose last line is not terminated is read like one whose last line is.", "quantifier": "all configuration files", "why_tests_cant": "Infinite language.", "anchors": ["src/conf.c: fly_parse_config_file"]}
{"id": "C73", "title": "Numeric and boolean options", "statement": "Integer options yield the decimal value written (clamped to the representable range); boolean options yield true/false exactly for the documented spellings.", "quantifier": "all option values", "why_tests_cant": "Infinite values.", "anchors": ["src/conf.c: fly_config_value_str, fly_config_value_long, fly_config_value_bool"]}
{"id": "C74", "title": "Log records are complete and not interleaved", "statement": "Every log record appears exactly once, contiguous and complete in the log file, however writes are split.", "quantifier": "all write-splitting behaviours and interleavings of workers", "why_tests_cant": "Kernel scheduling.", "anchors": ["src/log.c: __fly_write, __fly_log_write"]}
{"id": "C75", "title": "Log timestamps", "statement": "The local-time offset printed in log records denotes the actual UTC offset.", "quantifier": "all instants and offsets", "why_tests_cant": "All time zones.", "anchors": ["src/ftime.c: fly_logtime"]}
{"id": "C76", "title": "Multipart bodies are split at boundaries", "statement": "For every well-formed multipart body the handler sees exactly the parts' headers and contents, in order.", "quantifier": "all multipart bodies", "why_tests_cant": "Infinite inputs.", "anchors": ["src/body.c: fly_body_parse_multipart"]}
{"id": "C77", "title": "Cookies round-trip", "statement": "A cookie set by the application and returned by the browser is read back with the same name and value.", "quantifier": "all cookie names and values made of cookie-octets", "why_tests_cant": "Infinite strings.", "anchors": ["fly/cookie.py: header_value_from_cookie", "fly/_parse.py: parse_cookie"]}
{"id": "C78", "title": "Query and form fields round-trip", "statement": "Fields encoded by a standard form/query encoder are read back with the same names and values.", "quantifier": "all field lists", "why_tests_cant": "Infinite strings.", "anchors": ["fly/_parse.py: _parse_query, _parse_application_x_www_form_urlencoded"]}
{"id": "C79", "title": "Typed path parameters", "statement": "A bool/int/float/str path parameter is delivered to the handler with the value written in the path.", "quantifier": "all parameter texts", "why_tests_cant": "Infinite strings.", "anchors": ["fly/_parse.py: _get_path_params"]}
{"id": "C80", "title": "CORS preflight routes", "statement": "With a default CORS policy every path with a route answers OPTIONS, existing OPTIONS routes are not replaced, no other route changes, and applying the policy terminates.", "quantifier": "all route tables", "why_tests_cant": "Unbounded tables.", "anchors": ["fly/cors.py: apply_route"]}
{"id": "C81", "title": "Default headers never override", "statement": "A default response header is added iff the response lacks a header of that name (case-insensitively), and never changes existing ones.", "quantifier": "all responses and default header lists", "why_tests_cant": "Unbounded lists.", "anchors": ["fly/_base.py: handler"]}
{"id": "C82", "title": "Debug-only routes disappear in production", "statement": "In production mode no route flagged debug-only remains, and every other route does.", "quantifier": "all route tables", "why_tests_cant": "Depends on adjacency of flagged routes.", "anchors": ["fly/route.py: _production_routes, remove_only_debug_headers"]}
{"id": "C83", "title": "Route registration rejects duplicates", "statement": "Two registered routes never have the same method and normalised path; registration normalises runs of slashes and changes nothing else.", "quantifier": "every sequence of registrations", "why_tests_cant": "Unbounded histories.", "anchors": ["fly/route.py: register_route"]}
{"id": "C84", "title": "Handler results are mapped to responses", "statement": "The Python handler result is mapped as documented: Response -> its status/body/headers/content type, str/bytes -> 200 with that body, None -> empty 200, HTTPException -> its status, other exceptions -> 500 (with a traceback only in debug mode).", "quantifier": "all handler outcomes", "why_tests_cant": "Combinatorial.", "anchors": ["fly/_base.py: handler", "src/pyserver.c: pyfly_route_handler"]}
{"id": "C85", "title": "TLS protocol negotiation follows the client's offer", "statement": "On a TLS connection the server selects h2 if the client offers it, otherwise http/1.1 if the client offers it, otherwise no protocol; the connection is then served as HTTP/2 exactly when h2 was offered.", "quantifier": "all client protocol lists (any number of names, 1 to 255 bytes each)", "why_tests_cant": "The list is scanned with pointer arithmetic on length octets; the reachable positions depend on all names.", "anchors": ["src/ssl.c: __fly_ssl_alpn, __fly_ssl_alpn_cmp, __fly_ssl_strcmp", "src/version.c: fly_match_version_from_alpn"]}
{"id": "C86", "title": "A change notification brings the worker up to date", "statement": "After the worker has handled a notification that files below the mount points have changed, the files it serves for each mount point are exactly the files present below that mount point.", "quantifier": "all earlier histories and all directory trees below the mount points at the time of the notification", "why_tests_cant": "Tests try a few changes in a few directory layouts; the interplay of several mount points, of order and of nested directories is unbounded.", "anchors": ["src/worker.c: fly_worker_signal_change_mnt_content, __fly_work_add_nftw, __fly_work_del_nftw, __fly_work_unmount", "src/mount.c: fly_pf_from_parts_by_fullpath, fly_parts_file_remove"]}
{"id": "C87", "title": "Conditional requests for mounted files", "statement": "A request for a mounted file is answered 304 (Not Modified) exactly when its If-None-Match value is the file's current entity tag or, without that field, its If-Modified-Since date is not earlier than the file's last modification; otherwise the file is sent.", "quantifier": "all well-formed header sections, entity tags and modification dates", "why_tests_cant": "The answer depends on every field of the request and on its spelling; tests try a few.", "anchors": ["src/cache.c: fly_if_none_match, fly_if_modified_since", "src/ftime.c: fly_cmp_imt_fixdate", "src/request.c: fly_request_event_handler"]}
{"id": "C88", "title": "Every regular file can be given an entity tag", "statement": "Computing the entity tag of a regular file succeeds whatever its name and its modification and change times are.", "quantifier": "all names and times", "why_tests_cant": "Times range over 64-bit values; files from archives carry time 0 or times before 1970.", "anchors": ["src/cache.c: __fly_md5_from_hash, __fly_number_of_digits_time"]}
{"id": "C89", "title": "No sequence of HTTP/2 frames touches released memory", "statement": "Whatever frames a peer sends on a connection, in whatever order and on whatever streams, the server never uses a stream, frame or response after it has been released.", "quantifier": "all frame sequences, interleaved in any way with writes of any size and answers of the handler", "why_tests_cant": "Releases happen when responses finish; which references remain depends on the whole history of the connection.", "anchors": ["src/v2.c: fly_hv2_close_stream, fly_hv2_response_event_handler, fly_send_data_frame, fly_send_frame"]}
{"id": "C90", "title": "A DATA frame is sent whole", "statement": "Between the header of a DATA frame and the last byte of its payload no other frame is written to the connection.", "quantifier": "all histories of a connection and all splittings of writes", "why_tests_cant": "Only certain interleavings of received control frames with partial writes show the problem.", "anchors": ["src/v2.c: fly_send_data_frame, fly_send_data_frame_handler, fly_hv2_request_event_handler, fly_send_frame"]}
{"id": "C91", "title": "Responses on different streams progress independently", "statement": "A response whose stream has credit is sent even if another response waits for credit on its own stream.", "quantifier": "all connection states reachable by any history", "why_tests_cant": "The relevant states need several concurrent streams with different windows.", "anchors": ["src/v2.c: fly_hv2_request_event_handler, fly_send_data_frame"]}
{"id": "C92", "title": "A header block may be split into several frames", "statement": "A request whose header block arrives as a HEADERS frame followed by CONTINUATION frames is answered like the same block in a single HEADERS frame.", "quantifier": "all splittings and all connection states", "why_tests_cant": "Splittings are unbounded in number and position, and most clients never split.", "anchors": ["src/v2.c: fly_hv2_request_event_handler (case FLY_HV2_FRAME_TYPE_CONTINUATION), fly_hv2_parse_headers"]}
{"id": "C93", "title": "Content codings are lossless", "statement": "Whatever content a handler returns or a mounted file has, the coded form that is sent with Content-Encoding gzip, deflate or br is exactly the output of the compressor for the whole content, or the content is refused.", "quantifier": "all contents, limits and states of memory", "why_tests_cant": "Output sizes around block boundaries depend on the data, and tests use small contents.", "anchors": ["src/encode.c: fly_gzip_encode, fly_deflate_encode, fly_br_encode"]}
{"id": "C94", "title": "The content registered for a status code is sent", "statement": "A response without content whose status code has a registered content file carries the bytes of that file.", "quantifier": "all status codes and registered contents", "why_tests_cant": "The wrong message is well formed, and status lines alone pass a test.", "anchors": ["src/response.c: fly_response_event", "src/context.c", "src/worker.c"]}
{"id": "C95", "title": "Every accepted coding is served or refused", "statement": "A request whose Accept-Encoding the server accepts is answered with the content or a refusal; it never stops the worker.", "quantifier": "all contents, thresholds, limits and Accept-Encoding values", "why_tests_cant": "Crashes need particular combinations of coding, kind of content and size.", "anchors": ["src/response.c: fly_response_event, fly_response_set_send_ptr", "src/encode.c"]}
{"id": "C96", "title": "Stopping the server reaches every worker", "statement": "A termination or interrupt signal to the master makes it send SIGTERM to every live worker, once, start none, and return.", "quantifier": "all histories of deaths, stops and signals before the signal", "why_tests_cant": "Which workers the master still knows depends on the whole history.", "anchors": ["src/master.c: fly_master_signal_default_handler, __fly_msignal_handle, fly_remove_worker"]}
{"id": "C97", "title": "A worker's death does not take the server down silently", "statement": "Whatever way a worker dies, the master either replaces it or ends the service in order; it never vanishes and leaves the other workers behind.", "quantifier": "all exit statuses, signals and timings", "why_tests_cant": "Needs unusual exit statuses or a race between a stop and a kill.", "anchors": ["src/master.c: __fly_sigchld", "src/err.c: fly_emergency_verror"]}
{"id": "C98", "title": "Workers learn of changed content", "statement": "When the content of a mounted directory changes every live worker is told once; when the application file changes every worker is told to end and none is started in its place.", "quantifier": "all reachable states of the master", "why_tests_cant": "Depends on the history of deaths and stops.", "anchors": ["src/master.c: __fly_inotify_in_mp, __fly_reload, fly_kill_workers"]}
{"id": "C99", "title": "Requests of any content type reach their handler", "statement": "A request with a body is given to its handler whatever its Content-Type says; a type the server does not know makes no difference.", "quantifier": "all Content-Type values and bodies", "why_tests_cant": "Reading past a table often goes unnoticed in a test run.", "anchors": ["src/mime.c: fly_mime_type_from_strn", "src/header.c: fly_is_multipart_form_data", "src/request.c: fly_request_event_handler"]}
{"id": "C100", "title": "HEAD answers carry no content", "statement": "The answer to a HEAD request has the status the handler chose and no content, so that the next response on the connection is read from its first byte.", "quantifier": "all handler outcomes and default headers", "why_tests_cant": "Needs every kind of handler outcome; the surplus bytes only show in the next exchange on the same connection.", "anchors": ["src/pyserver.c: pyfly_route_handler", "fly/_base.py: handler", "src/response.c: fly_response_event"]}
{"id": "C101", "title": "Header values stay one field", "statement": "A value a handler puts in a response header reaches the client as the value of that one field, whatever characters it has.", "quantifier": "all names and values", "why_tests_cant": "Tests use harmless values; the claim is about every text, including line ends.", "anchors": ["fly/response.py: Response.add_header", "src/pyserver.c: pyfly_route_handler", "src/response.c: fly_response_event"]}
{"id": "C102", "title": "The CORS policy is on every response", "statement": "With a CORS policy that is not for debugging only, every response of every route carries Access-Control-Allow-Origin, in production as in debug mode.", "quantifier": "all route tables and policies", "why_tests_cant": "Depends on which other routes share the path and on the mode; one route in debug mode looks right.", "anchors": ["fly/cors.py: _Cors.apply_route, _Cors._apply_route", "fly/_base.py: remove_default_headers_with_debug", "fly/route.py: remove_only_debug_headers"]}
{"id": "C103", "title": "Handler arguments", "statement": "A handler is called with every argument its signature names: what the annotation says, or else the request, an entry of it, or the field of that name from the path, the query, a cookie or a header, in this order; if one is missing it is not called.", "quantifier": "all requests and all signatures", "why_tests_cant": "Infinitely many signatures and requests; what one argument gets may depend on the others.", "anchors": ["fly/_parse.py: parse_func_args, _check_with_annotation"]}
{"id": "C104", "title": "Header bytes reach the handler", "statement": "Every header field the server accepts is delivered to the Python handler or the request is refused; no field value stops the worker.", "quantifier": "all field values", "why_tests_cant": "A test sends ASCII; the claim is about all bytes.", "anchors": ["src/pyserver.c: pyfly_route_handler"]}
{"id": "C105", "title": "Cookie attributes", "statement": "A Set-Cookie header has exactly the attributes the application asked for.", "quantifier": "all names, values and attributes", "why_tests_cant": "Infinite strings and all combinations of attributes.", "anchors": ["fly/cookie.py: header_value_from_cookie", "fly/response.py: Response.set_cookie"]}
{"id": "C106", "title": "A connection is a sequence of exchanges", "statement": "On a kept HTTP/1.1 connection every complete request is answered, in order, with the answer its own bytes and the state of the application call for; no byte of one request or response gets into another, and the connection stays open unless an answer says otherwise.", "quantifier": "all lists of requests, all applications with state, all ways the bytes arrive and the socket takes the answers", "why_tests_cant": "A test plays a handful of exchanges with one timing; the claim is about every sequence, every split of the bytes and every application.", "anchors": ["src/request.c: fly_request_event_handler", "src/response.c: fly_response_event, __fly_response_reuse_handler, fly_after_response", "src/pyserver.c: pyfly_route_handler"]}
{"id": "C107", "title": "HTTP/2 request targets and pseudo-header fields", "statement": "A request over HTTP/2 whose :path is a valid origin-form target is understood as that path and query; a request whose target or pseudo-header fields are malformed is refused, and none stops the worker.", "quantifier": "all field lists and all :path values", "why_tests_cant": "Targets and field lists are unbounded; tests use a few plain paths with the fields a library writes.", "anchors": ["src/request.c: fly_hv2_request_target_parse", "src/v2.c: fly_hv2_request_line_from_header"]}
{"id": "C108", "title": "The same request gets the same answer over HTTP/2", "statement": "A request sent over HTTP/2 is given to the same handler with the same parameters and body, or gets the same file or status, as the same request over HTTP/1.1.", "quantifier": "all sites, requests, field lists and splittings of the body", "why_tests_cant": "The two protocols have separate parsers; agreement on every request cannot be sampled.", "anchors": ["src/v2.c: fly_hv2_response_event_handler, fly_hv2_request_line_from_header, fly_hv2_parse_data", "src/request.c: fly_hv2_request_target_parse"]}
{"id": "C109", "title": "An HTTP/2 request body is what the DATA frames carry", "statement": "The body a handler gets is the concatenation of the contents of the DATA frames of its stream, however the client cuts it and whether or not it declares a length.", "quantifier": "all bodies and all splittings", "why_tests_cant": "The number of splittings is exponential, and wrong bytes come from memory a test run happens to have zeroed.", "anchors": ["src/v2.c: fly_hv2_parse_data"]}
{"id": "C110", "title": "HTTP/2 frames survive short writes", "statement": "Whatever the socket takes at a time, the bytes written for a response are its frames and then one DATA frame with its content, each byte once and in order, and the response is finished once the socket has taken enough.", "quantifier": "all frames, contents and patterns of short writes, full sockets and turns", "why_tests_cant": "A loopback socket takes everything at once; the failures need a send buffer that is full in the middle of a frame.", "anchors": ["src/v2.c: __fly_send_frame, __fly_send_data_fh, fly_send_data_frame, fly_state_send_frame"]}
{"id": "C111", "title": "A client that goes away costs nobody else", "statement": "When a client closes or resets its connection while a response is written, only this connection ends; the worker and its other connections go on.", "quantifier": "all contents and all moments of the disconnection", "why_tests_cant": "The moment of the disconnection decides; a test suite closes connections after the response.", "anchors": ["src/v2.c: __fly_send_frame, fly_send_data_frame", "src/err.c: fly_error_error"]}
{"id": "C112", "title": "HTTP/2 responses arrive as they were made", "statement": "The client gets for every response a header block that means its status, its fields under lower-case names, one content-length and the coding, and the content in this coding; content the server refuses to send is answered with an error status.", "quantifier": "all responses of handlers, files and errors, all negotiated codings and all states of the decoder", "why_tests_cant": "A test compares a few responses; the claim is about all fields, contents and codings, and the failures need contents at buffer limits.", "anchors": ["src/v2.c: fly_hv2_response_event, fly_header_add_v2, fly_send_headers_frame, fly_send_data_frame", "src/header.c: fly_header_addmodify", "src/response.c: fly_respf, fly_404_response", "src/pyserver.c: pyfly_route_handler"]}
{"id": "C113", "title": "Every HTTP/2 response ends its stream", "statement": "The last frame of a response has END_STREAM set, so that the client knows that it is complete.", "quantifier": "all responses and window sizes", "why_tests_cant": "A client in a test has large windows and requests pages with content; an empty file or content as long as the window are the exceptions.", "anchors": ["src/v2.c: __fly_send_headers_frame, fly_send_data_frame, fly_hv2_response_event"]}
{"id": "C114", "title": "HTTP/2 responses respect the client's limits", "statement": "No DATA frame carries more than the flow-control windows allow or is larger than the client's maximum frame size.", "quantifier": "all contents and window sizes", "why_tests_cant": "Test contents are smaller than the initial window.", "anchors": ["src/v2.c: fly_send_data_frame, __fly_send_data_fh"]}
{"id": "C115", "title": "Header names of the application are left alone", "statement": "Answering a request does not change the str objects in which an application keeps its header names.", "quantifier": "all names and all sequences of responses over both protocols", "why_tests_cant": "Shows only when the same process answers HTTP/1.1 after HTTP/2 with the same constants.", "anchors": ["src/pyserver.c: pyfly_route_handler"]}
{"id": "C116", "title": "Connections do not disturb each other", "statement": "A worker accepts connections and serves each of them as its own client and handler determine; nothing one client does - connecting, resetting, sending a wrong first byte, leaving in the middle of a handshake - stops the worker or changes another connection.", "quantifier": "all histories of the event loop, any number of connections and every interleaving", "why_tests_cant": "The number of interleavings is unbounded, and the failures need a client that leaves at one particular moment.", "anchors": ["src/connect.c: fly_accept_listen_socket_handler, fly_recognize_protocol_of_connected", "src/ssl.c: __fly_ssl_accept_event_handler", "src/event.c: fly_event_handler, fly_event_handle"]}
{"id": "C117", "title": "Silent connections are closed when their time is up", "statement": "A connection on which nothing happens for the configured time is closed, whatever the other connections do, and no connection is closed before.", "quantifier": "all histories, all times", "why_tests_cant": "Needs a clock, idle and busy workers and connections in every phase.", "anchors": ["src/event.c: __fly_expired_event, fly_event_handler", "src/connect.c: fly_listen_socket_end_handler"]}
{"id": "C118", "title": "Plain and TLS clients are told apart", "statement": "On a plain port a client that starts a TLS handshake is disconnected and any other is spoken to in HTTP/1.1; on a TLS port a client that does not start a handshake is answered 400 and any other gets the protocol it agrees on in the handshake.", "quantifier": "all first bytes, all protocol names, all states of the worker", "why_tests_cant": "The claim is about every first byte in every state of the worker.", "anchors": ["src/connect.c: fly_recognize_protocol_of_connected, fly_listen_connected", "src/ssl.c: __fly_ssl_accept_event_handler"]}
{"id": "C119", "title": "Coded request bodies reach the handler decoded", "statement": "A request whose body has a Content-Encoding is given to its handler with the body decoded, over HTTP/1.1 and HTTP/2 alike; a coding the server does not know is answered with an error status.", "quantifier": "all requests, codings, bodies and sites", "why_tests_cant": "The codings are names a client chooses freely; the claim is about every name and every body.", "anchors": ["src/v2.c: fly_hv2_response_event_handler", "src/body.c: fly_decode_nowbody, fly_decode_body", "src/header.c: fly_content_encoding, fly_content_encoding_s", "src/encode.c: fly_supported_content_encoding, fly_gzip_decode, fly_br_decode, fly_deflate_decode"]}
{"id": "C120", "title": "The access log tells what was answered", "statement": "Every response that was sent completely is one line of the access log, with the client's address, the request line as the client sent it and the status code it got; a client cannot put other lines into the log.", "quantifier": "all sites, requests, protocols and connections", "why_tests_cant": "Only a quantified statement excludes that some request line breaks the log's lines; tests log short lines over HTTP/1.1.", "anchors": ["src/response.c: __fly_response_logcontent, fly_log_request_line_hv2, fly_log_request_line_modify, fly_response_log", "src/log.h: FLY_LOGMAX_SUFFIX"]}
{"id": "C121", "title": "Changes below a mount point are noticed", "statement": "Whatever is made, written, changed, renamed or removed below a mount point while the server runs, the server goes on, knows exactly the files that there are and has its workers read the mount point again.", "quantifier": "all trees and all histories of operations on them", "why_tests_cant": "Histories are unbounded, and the failures depend on what was there at the start and on how fast events are read.", "anchors": ["src/mount.c: fly_mount_inotify, fly_inotify_add_watch, fly_inotify_rm_watch, __fly_nftw", "src/mount.h: FLY_INOTIFY_WATCH_FLAG_PF, FLY_INOTIFY_WATCH_FLAG_MP", "src/master.c: __fly_inotify_in_mp, __fly_inotify_in_pf, __fly_inotify_handle, __fly_master_inotify_handler"]}
{"id": "C122", "title": "Command-line options override the configuration file", "statement": "When fly is started from the command line, every option that is given decides the setting it names, whatever the configuration file says; settings without an option have the last value of the configuration file, else the default; and a server that cannot be started reports that in its exit status. This also holds after the application's file has changed and the server has been set up again.", "quantifier": "for all configuration files, all combinations of options and option values, and all applications", "why_tests_cant": "Options are passed on as lines of a temporary configuration file: what happens depends on how every file can end and on every character a value can contain, and there are more combinations of options and files than can be tried.", "anchors": ["fly/main.py: fly_command_line, run", "fly/app.py: Fly._start_server, _run, Fly._display_explain", "src/conf.c: fly_parse_config_file", "src/pyserver.c: __pyfly_configure"]}
{"id": "C123", "title": "Acknowledged settings are no danger", "statement": "Whatever SETTINGS frames and acknowledgements a client sends and whenever it sends them, the server never uses memory it has freed, and each of its SETTINGS frames is sent.", "quantifier": "for all settings of the server, all histories of received frames and of partial progress of sending, and all times at which the connection ends", "why_tests_cant": "The failure depends on how received and sent frames interleave; a test client waits for the server's frames before it answers.", "anchors": ["src/v2.c: fly_send_settings_frame, fly_received_settings_frame_ack, fly_hv2_release_yet_ack_frame, fly_state_send_frame, fly_hv2_close_stream, fly_hv2_send_frame_release_noqueue_remove"]}
{"id": "C124", "title": "The server's own HTTP/2 settings take effect", "statement": "The values of the FLY_SETTINGS_... variables are announced to every HTTP/2 client and are the limits the server keeps to with what it receives; the limits for what it sends are those the client announced.", "quantifier": "for all values of the variables, all clients and all histories of a connection", "why_tests_cant": "There are 2^32 values for each of six variables, and the effect appears only later, in the responses to some clients.", "anchors": ["src/v2.c: fly_send_settings_frame_of_server, fly_received_settings_frame_ack, fly_hv2_settings_value_nb, fly_settings_frame_payload_set, fly_hv2_default_settings"]}
{"id": "C125", "title": "The pid file names the server that runs", "statement": "When a server is configured with create_pidfile, the pid file holds the pid of the running server for as long as it runs; it is gone after the server has ended, a second start of the server succeeds once the first has ended, the file is at the configured pidfile_path, and a reload of the application in debug mode keeps the server running.", "quantifier": "for all configurations, pids, disks and histories of starts, stops, changes of the application and removals of files", "why_tests_cant": "needs a whole life of processes, forks and files left by earlier runs; no unit test forks the server into a daemon and starts it a second time", "anchors": ["src/master.c: fly_create_pidfile_noexit", "src/master.c: fly_remove_pidfile", "src/util.c: fly_daemon", "src/pyserver.c: __pyfly_configure", "fly/app.py: _run"]}
{"id": "C126", "title": "A daemon lets its terminal go", "statement": "A server started as a daemon has no descriptor open on the terminal it was started from: 0, 1 and 2 are /dev/null, the log files and the listening socket stay as they were and everything else is closed, whatever descriptors were open at the start and whatever the limit of open files.", "quantifier": "for all sets of open descriptors, all descriptors of log files and sockets, and all limits", "why_tests_cant": "depends on the descriptors inherited and on the limits of the environment; the tests never run the server as a daemon", "anchors": ["src/util.c: fly_daemon", "src/context.h: is_fly_log_fd", "src/context.h: is_fly_listen_socket", "src/pyserver.c: __pyfly_run"]}
{"id": "C127", "title": "The HTTP/2 connection preface is recognised however it arrives", "statement": "A connection whose client begins with the 24 bytes of the HTTP/2 preface is served whatever pieces those bytes arrive in, everything behind them is left for the frames; any other beginning is refused and never crashes the worker.", "quantifier": "for all byte streams, all ways to cut them into pieces, all contents of fresh memory and all sizes of receive blocks", "why_tests_cant": "a test client on the same host sends the preface in one write; the failure depends on the cut and on the contents of uninitialised memory", "anchors": ["src/v2.c: fly_hv2_init_handler, fly_hv2_init_connection_preface", "src/buffer.c: fly_buffer_memcmp, fly_buffer_chain_release_from_length"]}
{"id": "C128", "title": "A client is told why its HTTP/2 connection ends", "statement": "When the server ends an HTTP/2 connection because of a connection error it sends a GOAWAY frame with the error code before it closes the connection.", "quantifier": "for all histories of received frames, responses and partial writes", "why_tests_cant": "a connection that was closed looks alike to tests that look only at responses, and there are unboundedly many histories that lead to an error", "anchors": ["src/v2.c: fly_hv2_goaway_handle, fly_send_goaway_frame, fly_hv2_close_stream"]}
{"id": "C129", "title": "PRIORITY frames do no harm", "statement": "Whatever PRIORITY frames an HTTP/2 client sends, with whatever dependencies, weights and exclusive flags and at whatever time in the life of its streams, each of them is dealt with in bounded time and without touching memory that was freed or never there.", "quantifier": "for all sequences of PRIORITY frames, other frames and finished responses on any number of streams", "why_tests_cant": "a fault needs particular sequences of weights, dependencies and closed streams, out of unboundedly many; most clients in tests send no PRIORITY frames", "anchors": ["src/v2.c: __fly_hv2_priority_deps_add, fly_hv2_priority_rebalance, fly_hv2_stream_search_from_sid, fly_hv2_create_stream, fly_hv2_close_stream"]}
{"id": "C130", "title": "The server listens where it is told", "statement": "A server that starts listens on every address its host name stands for, at the configured port and with the configured certificate and key. One that cannot start says why, and leaves no socket open.", "quantifier": "for all lists of addresses the host name stands for and all outcomes of the system calls on each of them", "why_tests_cant": "the machine a test runs on has its own addresses and its system calls do not fail; the fallback from one address to the next is never taken", "anchors": ["src/server.c: fly_socket_init, fly_socket_nonblocking", "src/context.c: fly_context_init, __fly_listen_sock", "src/pyserver.c: pyfly_master_init"]}
{"id": "C131", "title": "Records go to their logs", "statement": "Every access, error and notice record is written once to the file of its kind in the configured log directory; a copy goes to standard output if that option is set, and to standard error if that option is set. When a log cannot be opened the server says so.", "quantifier": "for all log directories, options, outcomes of opening the files and all records", "why_tests_cant": "tests look at one directory that exists and do not tell standard output from standard error; the faulty lengths of the directory name are two among thousands", "anchors": ["src/log.c: fly_log_init, __fly_logfile_init, __fly_access_log_path, __fly_error_log_path, __fly_notice_log_path, __fly_log_write_logcont"]}
{"id": "C132", "title": "A PRIORITY frame says what a stream's priority is", "statement": "After a PRIORITY frame its stream has the weight and the dependency the frame says, the only one if the exclusive flag is set, and no other stream's weight has changed.", "quantifier": "for all histories of frames, all streams, dependencies and the 256 weights", "why_tests_cant": "weights and dependencies are not visible in any response, and the interesting weight is one of 256", "anchors": ["src/v2.c: fly_hv2_weight, fly_hv2_priority_rebalance, __fly_hv2_priority_deps_add", "src/v2.h: struct fly_hv2_stream"]}
{"id": "C133", "title": "A worker starts whatever its files are", "statement": "A worker that is started, at the beginning or in place of one that died, opens every file of the mount points and serves all that can be read; a file that cannot be read is left out and stops nobody.", "quantifier": "for all mount points, files, sizes, limits and all outcomes of opening and encoding each file", "why_tests_cant": "tests start workers once, on files that can be read; a file changes while the server runs, and a worker dies later, in unboundedly many ways", "anchors": ["src/worker.c: __fly_worker_open_file, fly_preencode_pf, fly_worker_process", "src/mount.c: fly_join_path"]}
{"id": "C134", "title": "Default pages belong to their status codes", "statement": "With a directory of default contents the page for a status code is the file of that number in it, if it is there and can be read, and there is none otherwise; no page and no directory name stops a worker.", "quantifier": "for all directories and all outcomes of the system calls on each of the possible pages", "why_tests_cant": "a test has one directory with a few pages; names of directories near the limit and pages that fail to encode are not among them", "anchors": ["src/worker.c: __fly_worker_open_default_content, fly_preencode_frc", "src/context.c: fly_default_content_by_stcode"]}
{"id": "C135", "title": "Redirects arrive", "statement": "A handler that returns a redirection answers every request with the 3xx status and the location it was given, and with nothing else the location did not name.", "quantifier": "for all locations, all 3xx statuses, all bodies, both methods with and without content, both protocol versions", "why_tests_cant": "statuses and locations are unbounded, and what is sent passes through the Python function, the wrapper, the conversion to C and the serialisation", "anchors": ["fly/helper.py: redirect", "fly/response.py: Response.add_header", "src/pyserver.c: pyfly_route_handler", "src/response.c: fly_response_event"]}
{"id": "C136", "title": "A changed application is reloaded", "statement": "A change of the application's file restarts a server in debug mode and only such a server, whatever program makes the change and however.", "quantifier": "for all series of actions on the file (reading, writing, closing, changing attributes, moving, removing), all paths, both modes", "why_tests_cant": "editors save in many ways, and the kernel reports each by other events; a test makes one kind of change", "anchors": ["src/master.c: fly_master_setreload, __fly_master_reload_filepath, __fly_master_reload_filepath_handler, __fly_reload, fly_master_release", "src/util.h: FLY_NOT_COME_HERE"]}
{"id": "C137", "title": "A mistake in the application does not end the server", "statement": "When a new version of the application's file is wrong, the error is shown and the next version is tried; the process goes on.", "quantifier": "for all histories of versions of the file and all times at which it is looked at", "why_tests_cant": "histories are unbounded, and the way a version is wrong decides what happens", "anchors": ["fly/app.py: _run, _run_server, _watch_dog, Fly"]}
{"id": "C138", "title": "A process that ends because of an error says why", "statement": "When a process of the server ends because of an error, the message of the error and the process id are written to the error log, to the notice log and to the standard streams that were asked for.", "quantifier": "for all messages, levels, process ids, settings of the logs and outcomes of locking and writing", "why_tests_cant": "errors of this kind are rare and end the process; a test sees a missing record only if it looks for the one record it expects", "anchors": ["src/err.c: fly_emergency_verror, fly_emergency_error, fly_critical_error, fly_error_error, __fly_write_to_log_emerg, __fly_write_to_log_err", "src/event.c: fly_event_handle"]}
{"id": "C139", "title": "An error that is only to be logged does not end the worker", "statement": "An error of level alert, warning, notice, information or debugging is written to the notice log and the worker goes on.", "quantifier": "for all lists of errors of one event, all messages, all settings of the logs", "why_tests_cant": "the use of freed memory is silent in most runs", "anchors": ["src/err.c: fly_alert_error, fly_warn_error, fly_notice_error, fly_info_error, fly_debug_error, __fly_write_to_log_info", "src/event.c: fly_event_handle", "src/ssl.c: __fly_ssl_accept_event_handler"]}
{"id": "C140", "title": "The error log keeps what earlier runs have written", "statement": "Records about errors are added to the error log; nothing that is there is lost.", "quantifier": "for all contents of the file and all series of records", "why_tests_cant": "depends on the offset that all processes of a server share and on the order of two kinds of records over several runs", "anchors": ["src/err.c: __fly_write_to_log_emerg, __fly_write_to_log_err, __fly_write_to_log_info", "src/log.c: __fly_logfile_init, __fly_write"]}
{"id": "C141", "title": "Only signals that are to end a program end a worker", "statement": "A worker ends when it is sent a signal that ends programs, within a bounded time, and goes on after every other signal, among them those of the terminal that are meant for the master.", "quantifier": "for all series of signals, changes and reads, in any order", "why_tests_cant": "the kernel merges signals and orders them by number; the number of interleavings is unbounded", "anchors": ["src/worker.c: fly_worker_signals, __fly_wsignal_handle, __fly_worker_signal_handler, __fly_worker_signal_event, fly_worker_signal_default_handler", "src/fsignal.c: fly_refresh_signal, fly_signal_register"]}
{"id": "C142", "title": "No message about a changed mount point is lost", "statement": "After the master has noticed a change of mounted files, every worker looks at the files again, however many messages arrive at once and whatever the worker is doing, and keeps running.", "quantifier": "for all series of changes, messages and reads, from the fork of the worker on", "why_tests_cant": "needs a message in the short time between the fork and the registration of the signals, or several that the kernel merges", "anchors": ["src/master.c: __fly_master_fork, __fly_inotify_in_mp", "src/worker.c: fly_worker_process, __fly_worker_signal_event, fly_worker_signal_change_mnt_content"]}
{"id": "C143", "title": "A part of a file is sent as asked for on every system", "statement": "On systems without a system call for it, sending a number of bytes of a file from an offset sends exactly these bytes, returns their number and moves the offset by it, or reports how far it came.", "quantifier": "for all files, offsets, numbers of bytes and behaviours of the socket", "why_tests_cant": "depends on the sizes of the partial writes, which a test cannot choose, and on a build that tests on Linux never use", "anchors": ["src/util.c: fly_sendfile", "src/v2.c: fly_send_data_frame"]}
{"id": "C144", "title": "After a server has ended, signals do what they did before", "statement": "When a server ends and the program goes on, every signal has the action and is blocked or not as before the server was started, and no signal that arrives meanwhile meets another action than the program's own one.", "quantifier": "for all programs, all signals and all times at which signals arrive and are read", "why_tests_cant": "depends on the order of the changes and on when a signal arrives between two of them", "anchors": ["src/master.c: fly_master_init, fly_master_release, __fly_master_get_now_sighandler, __fly_master_set_orig_sighandler, __fly_master_fork", "src/fsignal.c: fly_signals, fly_refresh_signal, fly_signal_register"]}
