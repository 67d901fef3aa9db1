{"id": "C01", "title": "Network segmentation is invisible", "statement": "The bytes a client sends determine what the server parses, what the handler sees and what is written back; how the network splits those bytes into reads, and how large the server's scratch buffer happens to be, never changes any of it.", "quantifier": "every byte stream, every two ways of cutting it into non-empty reads, every positive scratch-buffer capacity, every handler, every ending of the stream (EOF, error, stall)", "why_tests_cant": "The number of segmentations of a stream is exponential in its length; a test exercises a handful.", "anchors": ["src/serve.rs: serve", "src/message.rs: read_headers, _read_const_length_body", "src/ctx.rs: ConnContext"]}
{"id": "C02", "title": "Well-formed request heads are parsed exactly", "statement": "A request head sent in standard wire form (method SP target SP version CRLF, 'Name: value' lines, blank line) with every part inside the configured limits is accepted; method, target and version come out byte for byte, looking a header name up returns exactly the values sent under that name (names compared case-insensitively, values stripped of surrounding spaces) in the order sent, and the reader is left on the first byte after the blank line.", "quantifier": "every well-formed request head of any size and any number of headers, every suffix following it, every configuration", "why_tests_cant": "Ranges over unboundedly many heads, including those crossing the internal switch of the header table's representation.", "anchors": ["src/message.rs: Message::read_headers", "src/internal/multi_map.rs: append, getall"]}
{"id": "C03", "title": "Only printable ASCII reaches a handler", "statement": "When a request head is accepted, every byte of the method, target, version, header names and header values is printable ASCII (0x20..0x7E), so the unchecked UTF-8 conversions made on those bytes are sound.", "quantifier": "every byte stream, configuration and segmentation", "why_tests_cant": "Needs every byte value at every position of every accepted stream.", "anchors": ["src/message.rs: read_headers, ensure_ascii!"]}
{"id": "C04", "title": "Accepted heads respect the size limits", "statement": "In every accepted head the method has at most 127 bytes, the target is shorter than max_url_size, the version has at most 126 bytes, a header name has at most 256 bytes, and every header name and every header value is shorter than max_header_line_size.", "quantifier": "every byte stream and configuration", "why_tests_cant": "Limit checks must hold for every length at or beyond the boundary, for all configured limits.", "anchors": ["src/message.rs: read_headers, MAX_HEADER_NAME_LENGTH", "src/config/http.rs: HttpConfig"]}
{"id": "C05", "title": "Over-long tokens are refused, never altered", "statement": "A request whose method or target is longer than the limit is rejected; it is never accepted with a byte of the method or target missing or moved into another field.", "quantifier": "every request line whose method or target exceeds the limit", "why_tests_cant": "Depends on the exact boundary behaviour for every length and limit.", "anchors": ["src/message.rs: read_headers ReadState::None / FirstLine0"]}
{"id": "C06", "title": "The header-count limit is enforced", "statement": "A request head carrying more than max_headers_count headers is rejected.", "quantifier": "every configuration with a positive limit, every number of headers above it", "why_tests_cant": "A test picks one limit and one count.", "anchors": ["src/message.rs: read_headers, hc, MessageReadCode::ReachMaxHeadersCount"]}
{"id": "C07", "title": "A header value is only ever visible under the name it was sent with", "statement": "For every accepted head, looking up a name returns exactly the values that appeared on lines carrying that name, in order; no other line contributes a value.", "quantifier": "every sequence of header lines the parser accepts", "why_tests_cant": "Needs all sequences of lines, including degenerate names, and both internal representations.", "anchors": ["src/message.rs: read_headers", "src/internal/multi_map.rs: append, vec_find_or_empty"]}
{"id": "C08", "title": "Header lines without a colon are refused", "statement": "A head containing a header line that has no ':' is rejected.", "quantifier": "every header line without a colon", "why_tests_cant": "All line contents and lengths.", "anchors": ["src/message.rs: read_headers 'readlines loop"]}
{"id": "C09", "title": "The head ends only at an empty line", "statement": "The header section is taken to end only at the two bytes CR LF; no other line ends it.", "quantifier": "every two-byte line", "why_tests_cant": "All byte pairs, in every position of every head.", "anchors": ["src/message.rs: read_headers size == 2"]}
{"id": "C10", "title": "Content-Length bodies are read exactly", "statement": "With content-length n and at least n bytes available, exactly the next n bytes are appended to the body and the following byte is left unread, whatever the segmentation, the buffer capacity and n.", "quantifier": "every n, every stream with at least n bytes, every segmentation and positive buffer capacity", "why_tests_cant": "Product of all lengths, buffer capacities and segmentations.", "anchors": ["src/message.rs: read_const_length_body_impl!, _read_const_length_body"]}
{"id": "C11", "title": "A truncated body ends the request", "statement": "If the peer closes the connection before the announced body is complete, reading the body finishes (with an error) instead of running forever.", "quantifier": "every announced length larger than what is sent", "why_tests_cant": "Non-termination cannot be observed by a finite test.", "anchors": ["src/message.rs: read_const_length_body_impl!"]}
{"id": "C12", "title": "max_body_size bounds what a client can make the server buffer", "statement": "A request announcing a body larger than max_body_size is rejected and its body is not stored.", "quantifier": "every configuration and every announced length above the limit", "why_tests_cant": "All limits and lengths.", "anchors": ["src/serve.rs: serve", "src/message.rs: read_const_length_body, read_body_normal"]}
{"id": "C13", "title": "Chunked bodies are decoded", "statement": "A body in chunked transfer coding (hexadecimal chunk sizes, any number of chunks, final zero chunk) is decoded to the concatenation of its chunks.", "quantifier": "every list of chunks", "why_tests_cant": "Unbounded number and sizes of chunks.", "anchors": ["src/message.rs: read_chunked_body_impl!"]}
{"id": "C14", "title": "A malformed content-length closes the connection without calling the handler", "statement": "If the first content-length value is not a decimal number that fits in 64 bits, the request is not handed to the handler, nothing is written and the connection is closed.", "quantifier": "every head whose content-length is malformed, every handler", "why_tests_cant": "All malformed numerals.", "anchors": ["src/message.rs: get_content_length, read_const_length_body", "src/serve.rs: serve"]}
{"id": "C15", "title": "Pipelined requests are handled once each, in order", "statement": "Any number of well-formed requests sent back to back on one connection are each handed to the handler exactly once, in order, each with its own head, and the responses are written in the same order.", "quantifier": "every list of well-formed requests, every segmentation, every handler that keeps the connection alive", "why_tests_cant": "Unbounded sequences and segmentations.", "anchors": ["src/serve.rs: serve", "src/message.rs: Message::clear"]}
{"id": "C16", "title": "A handler sees only its own request's body", "statement": "The body a handler sees for a request is exactly the body sent with that request, whatever earlier requests on the same connection carried.", "quantifier": "every sequence of requests on one connection", "why_tests_cant": "All histories of a connection.", "anchors": ["src/message.rs: MessageBody::clear, Message::clear", "src/serve.rs: serve"]}
{"id": "C17", "title": "The hello-world response does not depend on connection history", "statement": "Every request to the hello-world service is answered with the body 'Hello world!', whatever was sent before on the connection.", "quantifier": "every sequence of requests on one connection", "why_tests_cant": "All histories of a connection.", "anchors": ["src/services/helloworld.rs: http", "src/message.rs: MessageBody::clear"]}
{"id": "C18", "title": "Response framing is truthful", "statement": "Every response written by the built-in services carries exactly one content-length header, and its value is the number of body bytes that follow the blank line.", "quantifier": "every connection history, every request, both built-in services", "why_tests_cant": "All histories and body sizes.", "anchors": ["src/message.rs: write_to", "src/services/helloworld.rs", "src/services/fs.rs"]}
{"id": "C19", "title": "Handlers cannot break response framing with header operations", "statement": "Whatever sequence of header, setheader and delheader calls a handler makes, the response still carries exactly one content-length header equal to the body size.", "quantifier": "every sequence of response-header operations", "why_tests_cant": "All operation sequences.", "anchors": ["src/message.rs: write_to", "src/respw.rs", "src/internal/multi_map.rs: set, delete"]}
{"id": "C20", "title": "Status lines are well formed", "statement": "The first line of every response is 'HTTP/d.d SP code SP reason'.", "quantifier": "every request to a built-in service", "why_tests_cant": "All request versions.", "anchors": ["src/services/helloworld.rs: http", "src/services/fs.rs: http", "src/respw.rs: version, code"]}
{"id": "C21", "title": "A serialised message parses back to itself", "statement": "Serialising a message with well-formed first line and headers and parsing the bytes with the server's own reader yields the same first line, the same header lookups (plus the content-length) and the same body.", "quantifier": "every message whose parts are within the limits", "why_tests_cant": "Round-trip over all messages.", "anchors": ["src/message.rs: write_to, read_headers, read_const_length_body"]}
{"id": "C22", "title": "HTTP versions are parsed exactly", "statement": "The request version 'HTTP/M.m' (name compared case-insensitively) is reported as the pair (M, m), and anything else is reported as an error.", "quantifier": "every version string", "why_tests_cant": "All strings.", "anchors": ["src/reqr.rs: RequestReader::version"]}
{"id": "C23", "title": "HTTP/1.0 connections are not kept alive", "statement": "After answering a request whose version is below 1.1 the hello-world service closes the connection; from 1.1 on it keeps it open.", "quantifier": "every request version", "why_tests_cant": "All version strings.", "anchors": ["src/services/helloworld.rs: http", "src/reqr.rs: version"]}
{"id": "C24", "title": "Nothing but complete responses is ever written", "statement": "At every moment what has been written to the client is a prefix of the concatenation of complete serialised responses, one for each handler invocation so far in order; a request that fails to parse, and everything after it, contributes nothing.", "quantifier": "every byte stream, segmentation, handler and point at which the peer's connection fails", "why_tests_cant": "All streams and failure points.", "anchors": ["src/serve.rs: serve", "src/message.rs: write_to"]}
{"id": "C25", "title": "The idle timeout closes stalled connections", "statement": "A connection on which the client has stopped sending is eventually closed when idle_timeout is configured.", "quantifier": "every stalled stream and configured timeout", "why_tests_cant": "Concerns behaviour in the limit of time.", "anchors": ["src/serve.rs: serve", "src/config/http.rs: idle_timeout"]}
{"id": "C26", "title": "Header table behaves like a multi-value map (no deletions)", "statement": "For every history of append, set, remove and clear with non-empty names, lookups of any name agree with an abstract map from names to value lists, including across the point where the table switches from a vector to a hash map.", "quantifier": "every history of operations of any length", "why_tests_cant": "Unbounded histories, two representations.", "anchors": ["src/internal/multi_map.rs: MultiMap"]}
{"id": "C27", "title": "Header table behaves like a multi-value map (with deletions)", "statement": "The agreement of C26 also holds for histories that delete names.", "quantifier": "every history of operations including delete", "why_tests_cant": "Unbounded histories.", "anchors": ["src/internal/multi_map.rs: delete, set, append, tomap"]}
{"id": "C28", "title": "Removing a value removes all and only its occurrences", "statement": "remove(k, v) deletes every occurrence of v among the values of k, keeps the other values in order, and changes no other name.", "quantifier": "every value list and value, every table without deleted slots", "why_tests_cant": "All lists with repeated occurrences.", "anchors": ["src/internal/multi_map.rs: remove, vec_remove_by_value"]}
{"id": "C29", "title": "Iteration visits every name once with all its values", "statement": "each calls the visitor exactly once per live name with that name's complete value list, stopping after the first call that returns false. each_mut does the same, replaces the value list of every visited name by what the visitor left in it, and leaves the names not visited as they were. The reported length is the number of names.", "quantifier": "every table reachable without deletion and every visitor", "why_tests_cant": "All tables, visitors and hash orders.", "anchors": ["src/internal/multi_map.rs: each", "src/internal/multi_map.rs: each_mut", "src/internal/multi_map.rs: len"]}
{"id": "C30", "title": "The representation switch is transparent", "statement": "Converting the table from vector to hash map changes no lookup.", "quantifier": "every reachable vector-mode table", "why_tests_cant": "All reachable tables.", "anchors": ["src/internal/multi_map.rs: tomap, append"]}
{"id": "C31", "title": "Clearing yields a table indistinguishable from a new one", "statement": "After clear, every later operation and lookup behaves as on a freshly created table.", "quantifier": "every reachable table and every later history", "why_tests_cant": "All histories before and after.", "anchors": ["src/internal/multi_map.rs: clear"]}
{"id": "C32", "title": "Clearing a message body empties it", "statement": "After clear the body is empty and accepts writes.", "quantifier": "every reachable body state", "why_tests_cant": "All histories of body operations.", "anchors": ["src/message.rs: MessageBody::clear, end"]}
{"id": "C33", "title": "Compressed responses carry what was written", "statement": "If a handler switches compression on and writes pieces which the encoder accepts whole, the bytes sent as body are exactly the encoder's output for everything written to the body, and content-length is the length of that output.", "quantifier": "every lossless streaming encoder, every sequence of writes", "why_tests_cant": "All encoders and write sequences.", "anchors": ["src/message.rs: MessageBody::compression, write, end, write_to", "src/compression.rs"]}
{"id": "C34", "title": "Decompressing a body loses no input", "statement": "When a compressed request body is read through a decoder, every received byte is eventually given to the decoder even when it accepts only part of a write. What the message ends up with is the decoding, by the decoder of the requested type, of exactly the announced bytes, after what the body already held.", "quantifier": "every decoder that may accept partial writes, every body", "why_tests_cant": "All partial-write behaviours.", "anchors": ["src/message.rs: write_compression, read_const_length_body_decompression"]}
{"id": "C35", "title": "Size strings mean the sum of their parts", "statement": "A size string made of number/unit groups (b, k, kb, m, mb, case-insensitive, empty = bytes) denotes the sum of number times unit with binary units, whenever that sum fits in 64 bits.", "quantifier": "every list of groups", "why_tests_cant": "Unbounded strings.", "anchors": ["src/config/bytes_size.rs: SizeInBytesVisitor::visit_string", "src/config/split_uint.rs"]}
{"id": "C36", "title": "A gigabyte is 1024 megabytes", "statement": "The unit g/gb multiplies by 1024*1024*1024.", "quantifier": "every number", "why_tests_cant": "All numbers.", "anchors": ["src/config/bytes_size.rs: \"g\" | \"gb\""]}
{"id": "C37", "title": "Out-of-range sizes and durations are refused", "statement": "A size or duration that does not fit in 64 bits is rejected rather than silently becoming a different value.", "quantifier": "every size or duration string", "why_tests_cant": "All magnitudes.", "anchors": ["src/config/bytes_size.rs: amount +=", "src/config/duration_in_millis.rs: amount +="]}
{"id": "C38", "title": "Malformed sizes and durations are reported as errors", "statement": "Every malformed size or duration string yields a configuration error; none crashes the program.", "quantifier": "every string", "why_tests_cant": "All strings.", "anchors": ["src/config/split_uint.rs: panic!", "src/config/bytes_size.rs", "src/config/duration_in_millis.rs"]}
{"id": "C39", "title": "Duration strings mean the sum of their parts", "statement": "A duration string of number/unit groups (ms, s, m, h, d, w, empty = ms) denotes the sum in milliseconds whenever it fits in 64 bits.", "quantifier": "every list of groups", "why_tests_cant": "Unbounded strings.", "anchors": ["src/config/duration_in_millis.rs: visit_string"]}
{"id": "C40", "title": "Whitespace and letter case in units do not matter", "statement": "Inserting or removing white space anywhere in a size or duration string that has some other character, or changing the case of its ASCII letters, does not change its meaning.", "quantifier": "every string", "why_tests_cant": "All strings and insertions.", "anchors": ["src/config/split_uint.rs: split_unit", "src/config/bytes_size.rs", "src/config/duration_in_millis.rs"]}
{"id": "C41", "title": "Connection buffers are always usable", "statement": "After configuration is fixed up, every service's three buffer sizes are at least 4096 bytes; sizes of at least 4096 set explicitly are kept, unset sizes come from the root configuration, and any other size becomes 8192.", "quantifier": "every root and service configuration", "why_tests_cant": "All configurations.", "anchors": ["src/config/tcp.rs: TcpConfig::autofix"]}
{"id": "C42", "title": "Request limits are always positive", "statement": "After configuration is fixed up, max_url_size, max_header_line_size, max_headers_count and max_body_size are all positive, and positive limits set explicitly are kept. Limits left unset in the main file are 8 KiB for targets, 6 KiB for header lines, 128 header fields, 10 MiB for bodies, 8 KiB for buffers and 15 s for TLS handshakes.", "quantifier": "every root and service configuration", "why_tests_cant": "All configurations.", "anchors": ["src/config/http.rs: HttpConfig::autofix"]}
{"id": "C43", "title": "Services inherit the root's HTTP limits they do not set", "statement": "Every HTTP option a service leaves unset takes the root configuration's value.", "quantifier": "every root and service configuration", "why_tests_cant": "All configurations.", "anchors": ["src/config/http.rs: HttpConfig::autofix"]}
{"id": "C44", "title": "Fixing up a configuration twice changes nothing", "statement": "Applying the fix-up of HTTP, TCP and TLS settings to already fixed-up settings leaves them unchanged.", "quantifier": "every configuration", "why_tests_cant": "All configurations.", "anchors": ["src/config/http.rs", "src/config/tcp.rs", "src/config/tls.rs"]}
{"id": "C45", "title": "Services have distinct log-routing indices", "statement": "After configuration every service has a positive index, no two services share one, and index 0 belongs to the root.", "quantifier": "every set of services in every iteration order", "why_tests_cant": "All service sets and hash orders.", "anchors": ["src/config/mod.rs: Config::autofix"]}
{"id": "C46", "title": "Including service files never replaces a service", "statement": "Including configuration files either fails or adds services without changing any existing one; a name that is already taken makes loading fail.", "quantifier": "every existing configuration and every list of matched files", "why_tests_cant": "All file sets.", "anchors": ["src/config/mod.rs: Config::include"]}
{"id": "C47", "title": "Service names are unique", "statement": "In every successfully loaded configuration no two services have the same name.", "quantifier": "every configuration that loads", "why_tests_cant": "All configurations.", "anchors": ["src/config/mod.rs: load, autofix"]}
{"id": "C48", "title": "TLS is never silently dropped", "statement": "If a service's certificate or key path is configured the service either serves TLS or fails to start; it serves plain text only if both are empty.", "quantifier": "every TLS configuration and every state of the file system", "why_tests_cant": "All file-system outcomes.", "anchors": ["src/config/tls.rs: TlsConfig::load", "src/main.rs: run, accept_loop"]}
{"id": "C49", "title": "Handlers are told correctly whether a connection is encrypted", "statement": "The over_tls flag given to a connection is true exactly when the connection went through a TLS handshake.", "quantifier": "every accepted connection", "why_tests_cant": "All connections.", "anchors": ["src/main.rs: accept_loop, tls_accept_loop", "src/ctx.rs"]}
{"id": "C50", "title": "Accept errors and failed handshakes do not affect other connections", "statement": "Every successfully accepted (and, under TLS, handshaken) connection before shutdown is served exactly once, whatever accept errors or handshake failures happen in between; none is served after shutdown.", "quantifier": "every sequence of accept events", "why_tests_cant": "All event sequences.", "anchors": ["src/main.rs: accept_loop, tls_accept_loop"]}
{"id": "C51", "title": "Log files of one configuration are distinct", "statement": "The file appenders of one logging section never share a path, and sections of services with different names never share a path.", "quantifier": "every list of appenders and every set of distinct service names", "why_tests_cant": "All configurations.", "anchors": ["src/config/logging.rs: LoggingConfig::init"]}
{"id": "C52", "title": "Level filters select by severity", "statement": "An appender with level L receives exactly the records at least as severe as L, or exactly those of level L when 'equal' is set.", "quantifier": "every record and filter", "why_tests_cant": "Finite but part of every routing statement.", "anchors": ["src/config/logging.rs: FilterConifg::filter"]}
{"id": "C53", "title": "Every appender belongs to exactly one service's routing list", "statement": "After logging is initialised, every appender index occurs exactly once in the routing table, under the index of its own section, and lists are in increasing order.", "quantifier": "every set of logging sections", "why_tests_cant": "All configurations.", "anchors": ["src/config/mod.rs: Config::logging"]}
{"id": "C54", "title": "With one renderer, records reach exactly the right appenders", "statement": "When all appenders use one renderer, a record is written once to each appender of its service whose filter accepts it, and to no other, in rendered form.", "quantifier": "every configuration, record and history", "why_tests_cant": "All configurations and records.", "anchors": ["src/logging/consumer.rs: consume_when_single_renderer"]}
{"id": "C55", "title": "With several renderers, records reach exactly the right appenders", "statement": "When appenders use different renderers, a record is written once to each appender of its service whose filter accepts it, rendered by that appender's renderer, without touching memory out of bounds.", "quantifier": "every configuration and record", "why_tests_cant": "All configurations and records; undefined behaviour is not reliably observable.", "anchors": ["src/logging/consumer.rs: filter, comsume"]}
{"id": "C56", "title": "JSON log lines are JSON", "statement": "Every record rendered by the JSON renderer is a JSON object followed by CR LF.", "quantifier": "every record", "why_tests_cant": "All message texts and key/value lists.", "anchors": ["src/logging/json_line_renderer.rs: render"]}
{"id": "C57", "title": "One record is one line", "statement": "Every rendered record contains exactly one line break, at its end.", "quantifier": "every record, both renderers", "why_tests_cant": "All message texts.", "anchors": ["src/logging/json_line_renderer.rs", "src/logging/colorful_line_renderer.rs"]}
{"id": "C58", "title": "Colours add only escape sequences", "statement": "Removing the ANSI colour sequences from a colourful line gives the same text as rendering without colours.", "quantifier": "every record without escape characters, every colour scheme", "why_tests_cant": "All records and schemes.", "anchors": ["src/logging/colorful_line_renderer.rs: render, with_color"]}
{"id": "C59", "title": "A plain log file loses and reorders nothing", "statement": "At every moment the file content followed by the appender's buffer is the concatenation of everything written so far, and after a flush all of it is in the file. Never more than the configured buffer (at least 8092 bytes) and one block of two megabytes is held back, and what fits in the buffer stays there until a flush.", "quantifier": "every sequence of writes and flushes, every buffer size", "why_tests_cant": "All sequences.", "anchors": ["src/logging/file_appender.rs"]}
{"id": "C60", "title": "Rotation loses no log data", "statement": "Everything written to a rotating log ends up in one of its files after a flush.", "quantifier": "every sequence of writes, flushes and clock readings", "why_tests_cant": "All sequences and clocks.", "anchors": ["src/logging/rotation_file_appender.rs: rotate", "src/logging/file_appender.rs: reopen"]}
{"id": "C61", "title": "Rotation boundaries are the end of the local hour or day", "statement": "The next rotation time computed at time t is strictly after t, at most one period later, and is a local hour/day boundary.", "quantifier": "every time and time zone", "why_tests_cant": "All instants and zones, including daylight-saving changes.", "anchors": ["src/utils/luxon.rs: endofday, endofhour", "src/logging/rotation_file_appender.rs: calcnext"]}
{"id": "C62", "title": "Flush is a barrier", "statement": "When flush returns, every record logged before it has been processed and all appenders have been flushed since.", "quantifier": "every interleaving of logging threads, flushers and the consumer", "why_tests_cant": "All schedules.", "anchors": ["src/logging/dispatcher.rs: flush, consume!"]}
{"id": "C63", "title": "Shutdown writes out everything logged", "statement": "When the program exits after dropping the logging guard, every record logged before is in its file.", "quantifier": "every interleaving of the main thread and the log consumer", "why_tests_cant": "All schedules.", "anchors": ["src/logging/dispatcher.rs: ShutdownGuard::drop, init"]}
{"id": "C64", "title": "Logging can be switched off", "statement": "A configuration that disables logging everywhere starts the server.", "quantifier": "every such configuration", "why_tests_cant": "A hang is not observable by a finite test.", "anchors": ["src/logging/dispatcher.rs: init", "src/logging/consumer.rs: init", "src/config/mod.rs: logging"]}
{"id": "C65", "title": "Per-core mode waits for all services", "statement": "In per-core mode the main thread returns exactly after all service threads have ended.", "quantifier": "every schedule of service threads and main thread", "why_tests_cant": "All schedules.", "anchors": ["src/main.rs: run_per_core"]}
{"id": "C66", "title": "Service names derived from file names drop exactly the extension", "statement": "The name derived from a path is its last component without its last extension.", "quantifier": "every path", "why_tests_cant": "All paths.", "anchors": ["src/utils/paths.rs: namewithoutext"]}
{"id": "C67", "title": "WebSocket upgrade answers the client's key", "statement": "An upgrade succeeds exactly when the request has a non-empty sec-websocket-key; the response then is 101 with sec-websocket-accept equal to the base64 of the SHA-1 of key followed by the protocol GUID; otherwise the response is untouched.", "quantifier": "every request and response", "why_tests_cant": "All keys.", "anchors": ["src/ws_impl.rs: upgrade"]}
{"id": "C68", "title": "Transfer-coding detection is substring search", "statement": "A coding is detected exactly when some value of the header contains it as a substring.", "quantifier": "every value list and target", "why_tests_cant": "All strings.", "anchors": ["src/internal/header.rs: contains"]}
{"id": "C69", "title": "Log records are routed by their service attribute", "statement": "A record carrying a numeric 'service' attribute goes to that service, otherwise to the root; the attribute itself and attributes with empty names are not rendered, all others keep their order.", "quantifier": "every list of attributes", "why_tests_cant": "All attribute lists.", "anchors": ["src/logging/item.rs: KvsVisitor::visit_pair, Item::from"]}
{"id": "C70", "title": "Rotated files get names derived from the log path", "statement": "For a log path the rotated name starts with the same directory and base name and ends with the same extension.", "quantifier": "every log path produced by the configuration", "why_tests_cant": "All paths.", "anchors": ["src/logging/rotation_file_appender.rs: new, rotate"]}
{"id": "C71", "title": "Unknown log levels never reduce verbosity by accident", "statement": "A level name (case-insensitive error, warn, info, debug, trace) selects that level, and every other string, including 'off', selects trace.", "quantifier": "every string", "why_tests_cant": "All strings.", "anchors": ["src/config/mod.rs: logging", "src/config/logging.rs: init"]}
{"id": "C72", "title": "An empty configuration serves hello world", "statement": "Loading a configuration file that defines no service yields exactly one service, hello-world on 0.0.0.0:8080.", "quantifier": "every configuration file without services", "why_tests_cant": "All other settings.", "anchors": ["src/config/mod.rs: Config::load"]}
{"id": "C73", "title": "Over-long header lines are refused", "statement": "A header line longer than max_header_line_size is refused; it is never split into several headers.", "quantifier": "every header line longer than the configured limit", "why_tests_cant": "All line contents and limits.", "anchors": ["src/message.rs: read_headers"]}
{"id": "C74", "title": "The server does not look ahead", "statement": "What the server has done (requests handled, bytes written) when it waits for more input is a prefix of what it does on every continuation of the stream; and once it has closed the connection, further input changes nothing.", "quantifier": "every stream, every continuation, every segmentation and buffer size of both, every handler", "why_tests_cant": "Relates all pairs of streams.", "anchors": ["src/serve.rs: serve", "src/message.rs"]}
{"id": "C75", "title": "HTTP settings take effect", "statement": "Each HTTP setting of a service (max_body_size, idle_timeout, compression, ...) influences how connections are served.", "quantifier": "every pair of settings, every stream and handler", "why_tests_cant": "Absence of influence is a statement about all runs.", "anchors": ["src/serve.rs: serve", "src/config/http.rs"]}
{"id": "C76", "title": "Log files of different services are different files below the log directory", "statement": "The log files of a loaded configuration lie below the configured log directory and no two file appenders write to the same file, whatever the (distinct) service names are.", "quantifier": "every loaded configuration and every current directory", "why_tests_cant": "Service names are arbitrary text from configuration files; path texts can differ and still lead to the same place.", "anchors": ["src/config/logging.rs: LoggingConfig::init", "src/config/mod.rs: Config::autofix"]}
{"id": "C77", "title": "Ctrl-C stops accepting", "statement": "After Ctrl-C no further connection is accepted by any service.", "quantifier": "every order of connections, accept errors and Ctrl-C, for every service", "why_tests_cant": "needs the race between an accepted connection and the signal", "anchors": ["src/main.rs: accept_loop, tls_accept_loop"]}
{"id": "C78", "title": "No time layout breaks logging", "statement": "Whatever time layout is configured, rendering a record yields a line; logging never crashes.", "quantifier": "every time layout, record and renderer", "why_tests_cant": "the layout is free text interpreted by another library when a record is rendered", "anchors": ["src/logging/json_line_renderer.rs: render", "src/logging/colorful_line_renderer.rs: render", "src/config/mod.rs: logging"]}
{"id": "C79", "title": "Rotation never destroys an earlier log", "statement": "A log that has been rotated away stays available under its name, whatever happens later.", "quantifier": "every history of writes, flushes and clock readings in every time zone", "why_tests_cant": "needs rare clock changes and long histories", "anchors": ["src/logging/rotation_file_appender.rs: rotate"]}
{"id": "C80", "title": "A rotated log is named after the day or hour of its records", "statement": "The date in the name of a rotated log is the date on which its records were written.", "quantifier": "every rotation", "why_tests_cant": "depends on when the first record of the next period arrives", "anchors": ["src/logging/rotation_file_appender.rs: rotate"]}
{"id": "C81", "title": "A service of an accepted configuration starts or reports an error", "statement": "Every service of a configuration that loads either starts accepting connections or ends with an error; starting it never panics.", "quantifier": "every configuration that loads, every service in it, every outcome of binding and reading certificates", "why_tests_cant": "needs every service kind and every outcome of the system calls", "anchors": ["src/main.rs: run", "src/config/service.rs: Service::autofix"]}
{"id": "C82", "title": "Certificates configured for all services are used", "statement": "A service without a certificate and key of its own uses those of the root TCP settings; it does not serve plain text when they are set there.", "quantifier": "every root configuration and every service", "why_tests_cant": "needs every combination of root and service settings", "anchors": ["src/config/tls.rs: autofix, load", "src/config/tcp.rs: autofix", "src/main.rs: run"]}
{"id": "C83", "title": "The logger outlives every thread that logs", "statement": "No thread ever logs through a logger that has been freed.", "quantifier": "every schedule of service threads, main thread and log consumer, in per-core mode", "why_tests_cant": "needs a thread that starts after main has returned", "anchors": ["src/logging/dispatcher.rs: ShutdownGuard::drop", "src/main.rs: run_per_core, main"]}
{"id": "C84", "title": "Multi-threaded mode waits for all services", "statement": "In multi-threaded mode the program returns exactly after every service has ended; it reports each service that failed or crashed, and one service's failure does not end another.", "quantifier": "every schedule of services ending, failing or crashing and of the main task joining them", "why_tests_cant": "needs every order of endings and joins", "anchors": ["src/main.rs: run_multi_threads"]}
{"id": "C85", "title": "Connections in progress are completed at shutdown", "statement": "A connection being served when the services end is served to its end before the program exits.", "quantifier": "every schedule of connections, service endings and the main task", "why_tests_cant": "needs shutdown at every point of a connection", "anchors": ["src/main.rs: run_multi_threads, run", "src/serve.rs: serve"]}
{"id": "C86", "title": "File services need an existing root directory", "statement": "A configuration with a file service whose root is empty or does not exist is refused; no loaded configuration contains one.", "quantifier": "every configuration, wherever the service is defined (main file or included file)", "why_tests_cant": "needs every place a service can come from", "anchors": ["src/config/service.rs: autofix", "src/config/mod.rs: load_from_file, autofix"]}
{"id": "C87", "title": "A loaded configuration has exactly the configured services", "statement": "Loading keeps every configured service once, under its key, with its kind, host, address, certificate and log outputs, and adds none, except the hello-world service when none is configured.", "quantifier": "every configuration, set of included files and hash order", "why_tests_cant": "needs all combinations of main file and included files", "anchors": ["src/config/mod.rs: load_from_file, load_services, autofix"]}
{"id": "C88", "title": "Which configurations are accepted", "statement": "A configuration loads exactly when the file can be read, the working directory can be entered, patterns and matched service files are valid, keys are distinct and not blank, and file services have roots.", "quantifier": "every configuration and file-system state", "why_tests_cant": "an equivalence over all configurations", "anchors": ["src/config/mod.rs: load_from_file, load_services, autofix", "src/config/service.rs: autofix"]}
{"id": "C89", "title": "The program runs what the configuration says", "statement": "Without a configuration file the program ends at once and serves nothing; with one that loads it serves exactly its services, in per-core mode exactly if that is switched on; a refused configuration is an error.", "quantifier": "every argument, configuration, and environment", "why_tests_cant": "needs every configuration", "anchors": ["src/main.rs: main, load_config"]}
{"id": "C90", "title": "A file service sends the requested file", "statement": "The answer of a file service to a request carries the requested file below its root.", "quantifier": "every sequence of requests on a connection", "why_tests_cant": "must hold for every path and file", "anchors": ["src/services/fs.rs: FsService::http"]}
{"id": "C91", "title": "Only well-formed request heads are accepted", "statement": "The server accepts a request head only if it is a request line and header lines as HTTP defines them, each ended by CR LF, and then an empty line; anything else is refused.", "quantifier": "every byte stream, every way it ends, every setting of the limits", "why_tests_cant": "the malformed heads cannot be enumerated; what is accepted must be known for every byte string", "anchors": ["src/message.rs: Message::read_headers"]}
{"id": "C92", "title": "A failed compression is never sent as a complete response", "statement": "When the encoder of a response body fails, the client never receives a complete response for that request.", "quantifier": "every encoder that can fail, every handler, every sequence of requests before it", "why_tests_cant": "encoders fail rarely, at any point of any connection", "anchors": ["src/message.rs: MessageBody::end, Message::write_to", "src/serve.rs: serve"]}
{"id": "C93", "title": "A failed, closing or unread exchange is the last of its connection", "statement": "Another request is handled on a connection only if the response before was completed, the handler asked to keep the connection and the client took all of it; a failing handler, one that closes, an incomplete response or a client that is gone close the connection, and a panicking handler ends it without a response.", "quantifier": "every byte stream, handler, and point at which the client goes away", "why_tests_cant": "must hold for every handler and every history of a connection", "anchors": ["src/serve.rs: serve", "src/message.rs: Message::write_to"]}
{"id": "C94", "title": "Handlers get exactly the requests standing in the stream", "statement": "The requests given to a handler on a connection are those standing in the client's bytes one after the other from the first byte on, with their heads and bodies; nothing else is given to it, and a handler that answers gets all of them.", "quantifier": "every byte stream however it is cut into pieces and however malformed, every handler", "why_tests_cant": "all streams, including malformed ones", "anchors": ["src/serve.rs: serve", "src/message.rs: Message::read_headers, read_body"]}
{"id": "C95", "title": "After a protocol switch the new protocol is spoken", "statement": "When a handler answers a request and asks for WebSocket or HTTP/2, the answer is sent and the connection goes on in that protocol.", "quantifier": "every connection on which a handler asks for another protocol", "why_tests_cant": "all histories before the switch", "anchors": ["src/serve.rs: serve", "src/ws.rs: serve", "src/http2.rs: serve"]}
{"id": "C96", "title": "Given settings are kept", "statement": "Every setting given explicitly in a configuration that loads has that value in the loaded configuration, and nothing is switched on that was not configured.", "quantifier": "every configuration and file-system state", "why_tests_cant": "all combinations of root and service settings", "anchors": ["src/config/mod.rs: Config::load, autofix", "src/config/http.rs: autofix", "src/config/tcp.rs: autofix"]}
{"id": "C97", "title": "A response shows what its handler wrote", "statement": "The response to a request carries the version, code and reason its handler gave (the last ones, if given again), every header with the values its header and setheader calls leave, the true content-length, and the body the handler wrote.", "quantifier": "every handler that writes its response by response-writer and body calls, every connection and every exchange on it", "why_tests_cant": "all sequences of calls and all histories of a connection", "anchors": ["src/respw.rs: ResponseWriter", "src/message.rs: Message::write_to", "src/internal/multi_map.rs: append, set", "src/serve.rs: serve"]}
{"id": "C98", "title": "A log line shows its record", "statement": "The line of a record shows its level, time, source place, message and all its attributes in their order, in JSON as the members level, time, lineno, message and kvs, on the console in the colours of the scheme, and ends with CR LF.", "quantifier": "every record, time layout and colour scheme", "why_tests_cant": "all records and schemes", "anchors": ["src/logging/json_line_renderer.rs: render", "src/logging/colorful_line_renderer.rs: render, with_color", "src/logging/color.rs"]}
{"id": "C99", "title": "A rotating log rotates when its time has come, and recovers from failures", "statement": "The first record after the rotation time moves the log to the file named after the period and continues in a new file under the log's path; if this fails the log goes on and a later record rotates it.", "quantifier": "every state, record, clock reading and combination of failing file operations, and every later history", "why_tests_cant": "needs failures of single file operations at the moment of rotation, followed by arbitrary histories", "anchors": ["src/logging/rotation_file_appender.rs: rotate, writeall", "src/logging/file_appender.rs: reopen"]}
{"id": "C100", "title": "Log appenders are created as configured, or the server does not start", "statement": "Each enabled logging section gets one appender for each appender setting, in order: the console, or a file of the configured buffer size, rotated daily if asked for, named after its level in the log directory of the section and numbered with its position if an earlier setting has taken the name. If a file cannot be opened the start fails with an error.", "quantifier": "every configuration, log directory and set of files that can be opened", "why_tests_cant": "all combinations of sections, levels and failing files", "anchors": ["src/config/logging.rs: LoggingConfig::init", "src/config/mod.rs: Config::logging", "src/logging/rotation_file_appender.rs: new"]}
{"id": "C101", "title": "Text and numbers are read and written as their standards say", "statement": "A line is accepted as text exactly if its bytes are the UTF-8 encoding of Unicode characters (no overlong forms, no surrogates, nothing above U+10FFFF). Numbers are written in decimal without leading zeros, and read from decimal digits up to the limit of their type. Names are compared without regard to the case of A to Z only. What is trimmed around names, values and units is Unicode's white space.", "quantifier": "every byte string, character string and number", "why_tests_cant": "all byte strings; the boundaries of UTF-8, of the numeric types and of the white-space table are easy to miss", "anchors": ["src/message.rs: read_line, parse, eq_ignore_ascii_case, trim", "src/config/split_uint.rs", "src/config/bytes_size.rs", "src/config/duration_in_millis.rs", "src/config/mod.rs: trim"]}
{"id": "C102", "title": "A configuration file means what its settings say", "statement": "A configuration file is accepted exactly if every setting it gives can be understood, and then each setting has the value given for it in its section under any of its names, or its default if it is not given; a setting given twice is refused. The program's configuration is the one the main file says, with the services the matched service files say.", "quantifier": "every tree of TOML values as main file and as service files, every set of matched files", "why_tests_cant": "all trees of values in all sections; every field of every record has to be wired to its own name, type and default", "anchors": ["src/config/mod.rs: Config, load, include", "src/config/service.rs: ServiceConfig, Service, derive attributes", "src/config/http.rs, tcp.rs, tls.rs, runtime.rs, logging.rs: derive attributes"]}
{"id": "C103", "title": "A setting with an unknown name is reported", "statement": "A setting under a name the server does not know makes the configuration file be refused, so that a misspelled setting does not go unnoticed.", "quantifier": "every configuration file, section, name and value", "why_tests_cant": "all names, values and places", "anchors": ["src/config/*.rs: serde attributes"]}
{"id": "C104", "title": "A mistake in a configuration file is reported, not a crash", "statement": "Whatever its files contain, the program starts or reports an error; it does not panic while reading them.", "quantifier": "every main file, service files and file-system answers", "why_tests_cant": "all trees of values; all texts in all amounts", "anchors": ["src/config/mod.rs: load, include", "src/config/bytes_size.rs, duration_in_millis.rs, split_uint.rs"]}
{"id": "C105", "title": "What a section leaves out has the value it has without the section", "statement": "A setting that a section does not mention has the same value as when the whole section is missing.", "quantifier": "every configuration file, section and setting", "why_tests_cant": "all combinations of given and missing settings in all sections", "anchors": ["src/config/logging.rs: Default for LoggingConfig, serde(default)", "src/config/http.rs, tcp.rs, runtime.rs"]}
{"id": "C106", "title": "A condition that cannot be understood is reported", "statement": "The conditions of early answers and rules are checked when the configuration is read; a text that is not a condition is refused.", "quantifier": "every service configuration and every text in the place of a condition", "why_tests_cant": "all texts", "anchors": ["src/config/matchs.rs: MatchVisitor", "src/config/service.rs: EarlyReturn, Rule"]}
{"id": "C107", "title": "Responses reach the client completely whatever the buffers and the network do", "statement": "However the network takes the bytes and whatever the buffer sizes, a client that keeps reading receives exactly the responses, in order, and each has left completely before the server waits for the next request; if a response cannot be sent, all earlier ones have left and no further request is handled.", "quantifier": "every sequence of requests, handler, buffer size, TCP or TLS stream and every way the stream takes, refuses or stalls on the bytes offered", "why_tests_cant": "all splittings of the output into partial writes, and all points where the client may stop or disappear", "anchors": ["src/serve.rs: serve", "src/message.rs: Message::write_to"]}
{"id": "C108", "title": "The write buffer has the configured size", "statement": "tcp.write_stream_buf_size determines how responses are gathered before they are written to the socket.", "quantifier": "every configuration, request sequence and handler", "why_tests_cant": "all response sizes relative to all buffer sizes", "anchors": ["src/serve.rs: serve (line 29)", "src/config/tcp.rs: write_stream_buf_size"]}
{"id": "C109", "title": "What is logged about a request appears in the log of its service", "statement": "Every record that concerns a request, its connection or its service is written to the log outputs configured for that service.", "quantifier": "every configuration with logging, every service in it, every request, every record", "why_tests_cant": "all combinations of configured outputs, services and requests", "anchors": ["src/services/helloworld.rs: HelloWorldService::http", "src/logging/consumer.rs: Consumer", "src/main.rs: accept_loop, tls_accept_loop, run_multi_threads, run_per_core", "src/serve.rs: serve"]}
{"id": "C110", "title": "A client cannot put lines of its own into the log", "statement": "Whatever a client sends, each record about it is one line of the log, so that no line of a log is text chosen by a client.", "quantifier": "every byte stream, request, renderer and record", "why_tests_cant": "all texts a client may send, in every place of a request", "anchors": ["src/services/helloworld.rs: HelloWorldService::http (lines 38-63)", "src/logging/colorful_line_renderer.rs, src/logging/json_line_renderer.rs: render"]}
{"id": "C111", "title": "The trace of a request shows that request", "statement": "With the log level trace, what is logged for a request gives its peer, method, target and version, each header field sent and its own body; at other levels nothing is logged about requests.", "quantifier": "every byte stream, every request on it, every order of the header table", "why_tests_cant": "all requests, at all positions of a connection, in all groupings of header fields", "anchors": ["src/services/helloworld.rs: HelloWorldService::http (lines 38-63)", "src/reqr.rs: version"]}
{"id": "C112", "title": "No client can crash its connection", "statement": "Whatever bytes a client sends, in whatever pieces, and however its stream ends, the connection task never panics and never has undefined behaviour, unless the handler itself crashes; no call on the head of a response can make a handler crash.", "quantifier": "every byte stream, segmentation, ending, handler that does not crash by itself, configuration and history of the connection", "why_tests_cant": "all byte strings; the code trims vectors and reads tables by unchecked indices", "anchors": ["src/serve.rs: serve", "src/message.rs: read_headers, read_const_length_body, write_to", "src/internal/multi_map.rs"]}
{"id": "C113", "title": "A body is what was done to it", "statement": "After any history of writes, starting compressions or decompressions, ending them and clearing, the content of a body, its size and whether it says it is empty are those of the bytes written to it, encoded or decoded as requested; a history crashes only when it writes to a body lost to a failed decoding or starts a coding inside another.", "quantifier": "every history of body operations, every streaming encoder and decoder, failing decoders included", "why_tests_cant": "all interleavings of five operations with any data, and decoders that fail", "anchors": ["src/message.rs: MessageBody::{write, compression, decompression, clear, end, size, is_empty, inner}"]}
{"id": "C114", "title": "write_all through the compression libraries loses nothing", "statement": "Text written to a body with std's write_all, in any pieces, ends up in the body whole and in order: appended as it is without a coding; encoded, after what was there, once a compression has ended; decoded once a decompression has ended. Compressing never fails; if text cannot be decoded, one of the writes or the end of the body reports it. For any coder, write_all reporting success means the coder took everything, and failure that it took a beginning.", "quantifier": "every text and division into pieces, every coding and level, every library that takes at least one byte of each offer, however few, and decoders that refuse what cannot be decoded, at any time", "why_tests_cant": "how much of an offer an encoder takes depends on its internal buffers and on the data; the library's choices are unbounded", "anchors": ["src/message.rs: impl std::io::Write for MessageBody, MessageBody::{compression, decompression, end}", "src/compression.rs: _WriteCompressionImpl for GzEncoder, GzDecoder, DeflateEncoder, DeflateDecoder, CompressorWriter, DecompressorWriter"]}
{"id": "C115", "title": "A request that states its length in two ways is refused", "statement": "A request whose content-length fields disagree, or which has both a content-length and a transfer-encoding, is refused; so a proxy and this server cannot take the same bytes for different requests.", "quantifier": "every byte stream, every number and order of content-length and transfer-encoding fields, every position on a connection", "why_tests_cant": "the attack depends on the combination of two numbers, their positions and the bytes that follow", "anchors": ["src/message.rs: get_content_length, read_const_length_body", "src/serve.rs: serve"]}
{"id": "C116", "title": "The answer to a HEAD request has no body", "statement": "What is sent in answer to a HEAD request ends with the head of the response.", "quantifier": "every connection and history of requests on it, both built-in services, every handler that writes no body for HEAD", "why_tests_cant": "whether bytes follow the head depends on all earlier exchanges of the connection", "anchors": ["src/services/helloworld.rs: HelloWorldService::http", "src/message.rs: write_to, clear", "src/serve.rs: serve"]}
{"id": "C117", "title": "A client that waits for 100 Continue is not kept waiting", "statement": "A client that sends a head with Expect: 100-continue and waits with the body gets an answer: to go on or a final response.", "quantifier": "every head with the expectation, every part of the body already sent, every history of the connection", "why_tests_cant": "a deadlock of two parties is the absence of an event for all time", "anchors": ["src/serve.rs: serve", "src/message.rs: read_headers, read_const_length_body"]}
{"id": "C118", "title": "A refused request is answered", "statement": "A client whose request is refused is told so by an error response before the connection is closed.", "quantifier": "every byte stream, every reason to refuse what stands in it, every position on a connection", "why_tests_cant": "all malformed streams", "anchors": ["src/serve.rs: serve", "src/message.rs: MessageReadCode"]}
{"id": "C119", "title": "Connection: close is respected", "statement": "After answering a request with Connection: close the server closes the connection.", "quantifier": "every request with the field, at every position of every connection; every handler", "why_tests_cant": "all positions and spellings; whether the connection goes on is visible only in the requests that follow", "anchors": ["src/serve.rs: serve", "src/services/helloworld.rs: HelloWorldService::http"]}
{"id": "C120", "title": "Log times show the local date and time", "statement": "The time in a log line is the record's local date and time, by default as YYYY-MM-DD hh:mm:ss.mmm, else in the configured layout. In a time zone without clock changes lines sort by time as text.", "quantifier": "every instant of the years 0 to 9999, every time zone, every layout of plain characters and the specifiers %Y %m %d %H %M %S %.3f %F %T %%", "why_tests_cant": "all instants, zones and layouts; leap years follow a 400-year cycle", "anchors": ["src/utils/luxon.rs: fmtlocal", "src/logging/json_line_renderer.rs: render", "src/logging/colorful_line_renderer.rs: render"]}
{"id": "C121", "title": "Rotated logs are named by local date and hour", "statement": "A rotated log's name has the local year, month and day of the rotation, and the hour of hourly logs. Different days or hours never share a name; without clock changes names sort by time, and no archive is replaced.", "quantifier": "every instant, time zone, rotation kind and history of calls", "why_tests_cant": "all dates, including the far past and future; collisions show only between two particular days", "anchors": ["src/logging/rotation_file_appender.rs: rotate", "src/utils/luxon.rs: fmtlocal"]}
{"id": "C122", "title": "Every client of a running service gets its answers", "statement": "Once the program runs, whatever its configuration file, every client of a built-in service that sends requests within the service's limits and keeps reading gets one answer for each, complete and in order, and nothing else, whatever other clients do. No client can crash its connection's task.", "quantifier": "every configuration file, service, history of connections, splitting of the requests into pieces, and way of reading", "why_tests_cant": "configurations, schedules, segmentations and socket behaviour combine without bound", "anchors": ["src/main.rs: main, run, accept_loop", "src/serve.rs: serve", "src/ctx.rs: ConnContext::new"]}
{"id": "C123", "title": "A service without an address of its own uses the common one", "statement": "A service whose section gives no address listens on the address of the root section, as it uses the root's buffer sizes; or the configuration is refused. A service that gives an address listens there and nowhere else.", "quantifier": "every configuration, network, order in which services start and stop", "why_tests_cant": "all configurations and start orders; the service's failure is only a log line", "anchors": ["src/config/tcp.rs: TcpConfig::autofix", "src/main.rs: run"]}
{"id": "C124", "title": "Services with different hosts can share an address", "statement": "Two services configured for different hosts can be given the same address, and each request reaches the service of its host.", "quantifier": "every pair of services, order of starts, and request", "why_tests_cant": "which of the two services listens depends on the schedule", "anchors": ["src/config/service.rs: ServiceConfig.host", "src/main.rs: run, run_multi_threads, run_per_core"]}
{"id": "C125", "title": "The exit status tells whether services could start", "statement": "If the configuration is refused, or no service can listen, the program ends with an exit status other than 0; it does not end while a service listens.", "quantifier": "every configuration, network, order in which services start and stop", "why_tests_cant": "all combinations of services failing at any point", "anchors": ["src/main.rs: main, run_multi_threads"]}
{"id": "C126", "title": "Log lines on the console are complete, whole and in order", "statement": "Every line an appender writes to the standard output appears there once, in one piece and in the order of logging, also when several appenders and the program itself write to it; once flush has returned, all lines logged before are there; a line that could not be written is reported.", "quantifier": "every number of console appenders, every history of records and flushes, every schedule of the threads that do the writing, every point at which a write fails", "why_tests_cant": "the writing is done by a pool of threads; interleavings and failures are not controllable by tests", "anchors": ["src/logging/console_appender.rs: ConsoleAppender", "src/logging/consumer.rs: Consumer::comsume, flush", "src/logging/dispatcher.rs: init"]}
{"id": "C127", "title": "Header lines are read as HTTP defines them, or refused", "statement": "The headers of an accepted request are those its lines state when read as HTTP defines: a line ends with CRLF (or with LF alone, without losing anything), its name is everything before the first colon. A request with spaces between a name and the colon or before a name, or with other bytes a line cannot contain, is refused.", "quantifier": "every request head within the limits, every byte before the line feeds, any number of spaces, whatever follows on the connection", "why_tests_cant": "all placements of spaces and line ends in heads of any length, and what follows from them for the bodies and the next requests", "anchors": ["src/message.rs: Message::read_headers"]}
{"id": "C128", "title": "A request names exactly one host", "statement": "A request of HTTP/1.1 that names no host, or several, is refused; a handler finds the host of every other request.", "quantifier": "every sequence of requests on a connection, every handler, every segmentation", "why_tests_cant": "all positions of such a request among others, all header sets", "anchors": ["src/message.rs: Message::read_headers", "src/serve.rs: serve"]}
{"id": "C129", "title": "A TLS client has the configured time for its handshake, and no longer", "statement": "A client that completes its TLS handshake within tcp.tls.timeout of its beginning is served; one that does not is dropped after that time, whatever it sends in between, and not before; neither affects other clients.", "quantifier": "every number of clients, every order and timing of accepts, messages, timer wake-ups and task runs, every timeout", "why_tests_cant": "races between a timer, an arriving message and the worker that runs the task; any number of clients at once", "anchors": ["src/main.rs: tls_accept_loop", "src/config/tls.rs: timeout"]}
{"id": "C130", "title": "It makes no difference where the program is started", "statement": "The relative paths of a configuration file (service files, file roots, log files, certificates) name the same files whatever directory the program is started in, if the configuration file itself is given by its absolute path.", "quantifier": "every configuration, every set of files, every two starting directories", "why_tests_cant": "Tests run in one directory; the statement is about all pairs of directories and all files.", "anchors": ["src/config/mod.rs: load, include", "src/config/service.rs: Service::autofix", "src/config/tls.rs: load", "src/logging/file_appender.rs", "src/main.rs: load_config"]}
{"id": "C131", "title": "Logging does not delay requests, and records waiting to be written are limited", "statement": "A log call returns without waiting for files or for other records, and the number of records that wait in memory to be written stays below some bound.", "quantifier": "every number of log calls and threads, every schedule, every behaviour of the log files", "why_tests_cant": "A pile-up depends on the schedule and on how slow the files are; no bound follows from any number of runs.", "anchors": ["src/logging/dispatcher.rs: init (mpsc::channel), Dispatcher::log", "src/logging/consumer.rs"]}
{"id": "C132", "title": "Every accepted service name can be used", "statement": "If a configuration is accepted and logging is set up, starting one thread per service does not crash: every service gets a thread named after it, or an error is reported.", "quantifier": "every configuration and every service name, every failure of the operating system to create a thread", "why_tests_cant": "all names: the crash depends on a single character that nobody puts into a test.", "anchors": ["src/main.rs: run_per_core", "src/config/mod.rs: autofix, include"]}
{"id": "C133", "title": "Log directories are created", "statement": "A configuration that logs to files works whether or not the directories of these files exist already.", "quantifier": "every configuration, every set of existing directories", "why_tests_cant": "All configurations and all states of the disk; a test machine has the directories after the first run.", "anchors": ["src/logging/file_appender.rs: open", "src/config/logging.rs: init", "src/config/mod.rs: logging"]}
{"id": "C134", "title": "Closing a connection loses no answers", "statement": "When the server closes a connection, the client can still read all answers written to it before: the server has read everything the client sent, so that closing does not reset the connection.", "quantifier": "every byte stream, every segmentation, every handler, every reason to close", "why_tests_cant": "Whether the reset overtakes the answers depends on timing and on what the client still sends.", "anchors": ["src/serve.rs: serve", "src/message.rs: MessageReadCode", "src/services/helloworld.rs: http"]}
{"id": "C135", "title": "A request costs the same however many came before it", "statement": "What the server sends and keeps in memory for a request does not grow with the number of requests handled on the connection before: the answers stay proportional to what the client sends, and what is held stays bounded.", "quantifier": "every request, every number of repetitions, every factor and bound, every handler", "why_tests_cant": "Growth shows only in the limit, for every factor and every bound.", "anchors": ["src/serve.rs: serve", "src/message.rs: Message::clear", "src/services/helloworld.rs: http"]}
{"id": "C136", "title": "Opening handshakes, and nothing else, start a WebSocket connection", "statement": "A handler that offers WebSocket answers exactly the opening handshakes of RFC 6455 with 101, and the answer is one HTTP allows; other requests are not upgraded.", "quantifier": "every well-formed request, every configuration and segmentation, whatever follows on the connection", "why_tests_cant": "All requests that are almost handshakes.", "anchors": ["src/ws_impl.rs: upgrade", "src/serve.rs: serve", "src/message.rs: Message::write_to"]}
{"id": "C137", "title": "Starting again with the same configuration gives the same services", "statement": "If the same configuration is loaded by another run of the program, it is accepted or refused as before, and when accepted gives the same settings, the same services under the same names with the same settings, and the same log outputs, whatever order the map of services is iterated in.", "quantifier": "every configuration, every set of included files, every two orders of the map", "why_tests_cant": "The order is chosen at random in each process; a test sees one of them.", "anchors": ["src/config/mod.rs: Config::autofix, Config::load", "src/config/logging.rs: LoggingConfig::init"]}
{"id": "C138", "title": "The order of services and included files in a configuration makes no difference", "statement": "Reordering the services of the main file, the include patterns (including moving one between the single pattern and the list), or the files a pattern matches neither makes an accepted configuration refused nor a refused one accepted, and changes neither the settings, nor the services and their settings, nor any service's log outputs.", "quantifier": "every configuration, every rearrangement, every set of included files", "why_tests_cant": "All rearrangements of all configurations; the order of matched files depends on the system.", "anchors": ["src/config/mod.rs: Config::include, Config::load, Config::autofix", "src/config/logging.rs: LoggingConfig::init"]}
{"id": "C139", "title": "The letter case of header names and the spaces around header values make no difference", "statement": "Two connections whose requests differ only in the letter case of header names and the number of spaces around header values behave identically: the handler is given the same requests, the same bytes are written and the connection ends in the same way.", "quantifier": "every handler, every two spellings of every number of requests, every continuation, every configuration, segmentation and ending", "why_tests_cant": "All spellings of all requests.", "anchors": ["src/message.rs: Message::read_headers", "src/serve.rs: serve"]}
{"id": "C140", "title": "The order of header fields with different names makes no difference", "statement": "With a handler that looks header fields up by name, such as those of the program, two connections whose requests differ only in the order of fields with different names write the same bytes and end in the same way; the handler is given requests it cannot tell apart.", "quantifier": "every such handler, every reordering of every number of well-formed requests, every configuration, segmentation and ending", "why_tests_cant": "All orders of all sets of fields, beyond the size at which the header table changes its representation.", "anchors": ["src/message.rs: Message::read_headers", "src/internal/multi_map.rs: MultiMap", "src/serve.rs: serve"]}
