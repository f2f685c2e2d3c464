{"id": "C01", "title": "HPACK integer round trip", "statement": "Encoding any 32-bit value with any legal prefix width and decoding the result with the same prefix width, with arbitrary flag bits in the unused high bits of the first byte and arbitrary bytes following, yields the same value and leaves the reader exactly after the encoded bytes.", "quantifier": "every value in [0,2^32), every prefix width 1..8, every content of the unused first-byte bits, every suffix", "why_tests_cant": "2^32 values times 8 prefixes times unbounded suffixes; tests sample a handful of literals.", "anchors": ["lib/hpack/int_encoder.cpp:IntegerEncoder::encode", "lib/hpack/int_decoder.cpp:IntegerDecoder::decode"]}
{"id": "C02", "title": "HPACK integer decoding is exact and never wraps", "statement": "Whenever the integer decoder reports a value, that value is the mathematical RFC 7541 section 5.1 value of exactly the bytes it consumed and is below 2^32; whenever it reports an error the input is truncated, or the value does not fit 32 bits, or more than five continuation bytes were used. It consumes at most six bytes when it succeeds and at most seven otherwise.", "quantifier": "every byte string and every prefix width 1..8", "why_tests_cant": "Overflow and truncation boundaries occur at every length and every partial sum; the input space is infinite.", "anchors": ["lib/hpack/int_decoder.cpp:IntegerDecoder::decode", "lib/hpack/byte_reader.cpp:ByteReader::read_byte"]}
{"id": "C03", "title": "HPACK integer encoding is minimal and well formed", "statement": "For every legal prefix width the encoder yields between one and six bytes whose first byte fits in the prefix, whose every non-final continuation byte has its top bit set and whose final byte has it clear, and no shorter RFC encoding of the value exists; an illegal prefix width raises an exception and yields nothing.", "quantifier": "every 32-bit value and every 8-bit prefix width", "why_tests_cant": "The claim compares against all other encodings of the value.", "anchors": ["lib/hpack/int_encoder.cpp:IntegerEncoder::encode"]}
{"id": "C04", "title": "Huffman code table is a complete canonical prefix code", "statement": "No symbol's code is a prefix of another symbol's code, the table is the canonical code of its length sequence, and the only bit path that leads to no symbol is the all-ones end-of-string code of 30 bits; building the decoding tree from it never raises.", "quantifier": "every pair of symbols and every infinite bit path", "why_tests_cant": "Completeness is about all bit strings, not about the 256 listed codes.", "anchors": ["lib/hpack/huffman_codes.h:HUFFMAN_CODES", "lib/hpack/huffman_tree.cpp:HuffmanTree::insert_symbol", "lib/hpack/header_block_decoder.cpp:populate_huffman_tree"]}
{"id": "C05", "title": "Huffman round trip", "statement": "Huffman-encoding any string of octets and decoding the resulting bytes yields the original string.", "quantifier": "every octet string of every length", "why_tests_cant": "Padding and code boundaries interact at every bit offset; strings are unbounded.", "anchors": ["lib/hpack/header_block_encoder.cpp:write_length_and_string", "lib/hpack/bit_writer.h:BitWriter", "lib/hpack/huffman_tree.cpp:HuffmanTree::decode"]}
{"id": "C06", "title": "Huffman decoding is sound", "statement": "If the Huffman decoder accepts some bytes and yields a string, then the bits of the input are the concatenation of the codes of that string followed by a tail that contains no complete symbol or starts with the 30-bit end-of-string code and is all ones; if it rejects, the input contains that end-of-string path followed by a zero bit.", "quantifier": "every byte string", "why_tests_cant": "Quantifies over all inputs including malformed ones.", "anchors": ["lib/hpack/huffman_tree.cpp:HuffmanTree::decode"]}
{"id": "C07", "title": "Huffman padding is validated", "statement": "The Huffman decoder accepts an input only if its padding is at most seven bits long, consists of ones only, and no end-of-string symbol occurs (RFC 7541 section 5.2).", "quantifier": "every byte string", "why_tests_cant": "A decoder test can show a rejection, not that all malformed paddings are rejected.", "anchors": ["lib/hpack/huffman_tree.cpp:HuffmanTree::decode"]}
{"id": "C08", "title": "Huffman output size", "statement": "The Huffman form of a string has exactly ceil(total code bits / 8) octets, its padding is fewer than eight one-bits, and decoding n octets yields at most 8n/5 octets.", "quantifier": "every octet string", "why_tests_cant": "Unbounded inputs.", "anchors": ["lib/hpack/bit_writer.h:BitWriter::finalize", "lib/hpack/huffman_tree.cpp:HuffmanTree::decode"]}
{"id": "C09", "title": "Dynamic table accounting", "statement": "After any sequence of insertions and size changes the reported size equals the sum over the stored entries of name length + value length + 32 and does not exceed the current maximum, and no operation ever removes from an empty table.", "quantifier": "every finite history of insert/resize operations from any initial maximum", "why_tests_cant": "Invariants over unbounded histories.", "anchors": ["lib/hpack/dynamic_table.cpp:DynamicTable::insert", "lib/hpack/dynamic_table.cpp:DynamicTable::set_max_table_size", "lib/hpack/dynamic_table.cpp:DynamicTable::size"]}
{"id": "C10", "title": "Dynamic table eviction follows RFC 7541", "statement": "After an insertion the table holds the longest newest-first run of (new entry, previous entries) that fits the maximum, or nothing if the new entry alone does not fit; after a resize it holds the longest newest-first run of the previous entries that fits.", "quantifier": "every table content, every entry, every maximum", "why_tests_cant": "Oldest-first eviction order matters at every content combination.", "anchors": ["lib/hpack/dynamic_table.cpp:DynamicTable::insert", "lib/hpack/dynamic_table.cpp:DynamicTable::set_max_table_size"]}
{"id": "C11", "title": "Dynamic table lookup", "statement": "Looking up a header (or a name) reports the smallest index whose entry equals the header (or has that name), and reports nothing exactly when no entry does.", "quantifier": "every table and every header", "why_tests_cant": "Absence and minimality quantify over all entries.", "anchors": ["lib/hpack/dynamic_table.cpp:DynamicTable::find", "lib/hpack/dynamic_table.cpp:DynamicTable::find_name"]}
{"id": "C12", "title": "Header decoder soundness against RFC 7541", "statement": "Whenever the header-block decoder returns a header list, that list and the resulting dynamic table are ones RFC 7541 assigns to the block in the starting table state (with the Huffman leniency of C06).", "quantifier": "every block and every table state reachable by earlier blocks", "why_tests_cant": "State carries across blocks; blocks are unbounded.", "anchors": ["lib/hpack/header_block_decoder.cpp:HeaderBlockDecoder::decode", "lib/hpack/header_field.h:HeaderField::from_byte"]}
{"id": "C13", "title": "Header decoder completeness within limits", "statement": "Every RFC-valid block whose integers fit 32 bits in at most five continuation bytes, whose literal strings are at most 4096 octets and whose table size updates are at most 65536 is accepted, with exactly the RFC header list and table.", "quantifier": "every valid block and table state", "why_tests_cant": "Needs all valid encodings (any string may be raw or Huffman, any index form), not those one encoder happens to produce.", "anchors": ["lib/hpack/header_block_decoder.cpp:HeaderBlockDecoder::decode"]}
{"id": "C14", "title": "Header decoder has defined behaviour on every input", "statement": "For every byte string the decoder returns a header list or a protocol error; it never reads an absent integer result or accesses a table out of range.", "quantifier": "every byte string and table state", "why_tests_cant": "Undefined behaviour may pass any number of tests.", "anchors": ["lib/hpack/header_block_decoder.cpp:decode_indexed_field", "lib/hpack/header_block_decoder.cpp:decode_literal_field", "lib/hpack/dynamic_table.cpp:DynamicTable::get"]}
{"id": "C15", "title": "Header decoder resource bounds", "statement": "Every decoded name and value is at most 4096 octets, the number of headers is at most the number of input octets, the table stays within 65536 octets and 2048 entries, on every sequence of blocks from a client.", "quantifier": "every history of blocks", "why_tests_cant": "An attacker chooses the worst block; tests do not.", "anchors": ["lib/hpack/header_block_decoder.cpp:MAX_HEADER_STRING_LENGTH", "lib/hpack/dynamic_table.h:HARD_TABLE_SIZE_LIMIT"]}
{"id": "C16", "title": "Invalid header indices are rejected", "statement": "A block that refers to index 0 as an indexed field, or to an index beyond the static and dynamic tables, is answered with a protocol error and never yields a header.", "quantifier": "every table state, every index below 2^32, every rest of block", "why_tests_cant": "All out-of-range indices and all table fillings.", "anchors": ["lib/hpack/header_block_decoder.cpp:read_indexed_header", "lib/hpack/header_block_decoder.cpp:read_indexed_header_name"]}
{"id": "C17", "title": "Clients with a smaller table are decoded correctly", "statement": "A client encoder that keeps its dynamic table to any limit not larger than the server's (in particular the RFC default of 4096 octets) and references only entries it still holds is decoded by the server to exactly the headers it meant, over the whole connection.", "quantifier": "every history of blocks by any such encoder", "why_tests_cant": "The two tables evict at different times; agreement is an invariant over histories.", "anchors": ["lib/hpack/dynamic_table.h:DEFAULT_MAX_TABLE_SIZE", "lib/hpack/header_block_decoder.cpp:HeaderBlockDecoder::decode"]}
{"id": "C18", "title": "Response headers survive encoding", "statement": "For every sequence of response header lists sent on one connection, an RFC 7541 decoder with the same table limit recovers exactly those lists, in order.", "quantifier": "every sequence of header lists", "why_tests_cant": "Table state depends on the whole history of responses.", "anchors": ["lib/hpack/header_block_encoder.cpp:HeaderBlockEncoder::encode"]}
{"id": "C19", "title": "Response headers with few distinct fields always survive", "statement": "If all responses of a connection draw their headers from a set of at most 65 distinct fields in which a name outside the static table never has two different values, and strings are encodable, every response decodes to exactly its headers for any number of responses.", "quantifier": "every unbounded sequence over any such set", "why_tests_cant": "Unbounded number of responses with evictions and re-insertions.", "anchors": ["lib/hpack/header_block_encoder.cpp:HeaderBlockEncoder::encode"]}
{"id": "C20", "title": "Response headers are decodable by a default-table client", "statement": "A client that keeps the RFC default table limit of 4096 octets recovers exactly the header lists the server sent.", "quantifier": "every sequence of header lists", "why_tests_cant": "Desynchronisation needs specific histories.", "anchors": ["lib/hpack/header_block_encoder.cpp:HeaderBlockEncoder::encode", "lib/hpack/dynamic_table.h:DEFAULT_MAX_TABLE_SIZE", "lib/http2_conn.cpp:process_frame"]}
{"id": "C21", "title": "Any octets may appear in response header values", "statement": "Encoding a response header never has undefined behaviour, whatever octets the handler put in names and values.", "quantifier": "every header", "why_tests_cant": "Undefined behaviour is not observable by passing tests.", "anchors": ["lib/hpack/header_block_encoder.cpp:write_length_and_string"]}
{"id": "C22", "title": "Frame header codec", "statement": "Serialising a frame header and parsing the nine octets gives the same length (mod 2^24), type, flags and 31-bit stream id; parsing ignores the reserved bit; parse after serialise after parse is stable for all nine-octet inputs.", "quantifier": "every header field combination and every nine-octet string", "why_tests_cant": "2^72 inputs.", "anchors": ["lib/http2_frames.h:Http2FrameHeader::parse", "lib/http2_frames.h:Http2FrameHeader::serialize"]}
{"id": "C23", "title": "Payload codecs", "statement": "SETTINGS entries, GOAWAY and WINDOW_UPDATE payloads survive serialise-then-parse for all field values, with reserved bits dropped.", "quantifier": "every field value", "why_tests_cant": "2^48 and more inputs.", "anchors": ["lib/http2_frames.h:Http2Setting", "lib/http2_frames.h:Http2GoAwayPayload", "lib/http2_frames.h:Http2WindowUpdate"]}
{"id": "C24", "title": "SETTINGS parsing", "statement": "A SETTINGS payload is accepted exactly when its length is a multiple of six, and then yields its entries in order, each exactly once.", "quantifier": "every payload", "why_tests_cant": "Unbounded payload.", "anchors": ["lib/http2_frame_reader.cpp:Http2FrameReader::read_settings"]}
{"id": "C25", "title": "Frame payload readers are memory safe", "statement": "Reading a HEADERS, SETTINGS, WINDOW_UPDATE or GOAWAY payload never accesses memory outside the payload, whatever its length and flags.", "quantifier": "every payload length and flag octet", "why_tests_cant": "Out-of-range span access is undefined behaviour that tests may not reveal.", "anchors": ["lib/http2_frame_reader.cpp:Http2FrameReader::read_window_update", "lib/http2_frame_reader.h:headers_block"]}
{"id": "C26", "title": "Padded and prioritised HEADERS are understood", "statement": "For a HEADERS frame with padding and/or priority fields the header block handed to the decoder is exactly the frame's header block fragment (RFC 7540 section 6.2).", "quantifier": "every flag combination, padding length and block", "why_tests_cant": "Quantifies over all payloads.", "anchors": ["lib/http2_frame_reader.h:headers_block"]}
{"id": "C27", "title": "Behaviour does not depend on network segmentation", "statement": "For every client octet stream, as long as the transport does not fail and the client keeps its side open, the octets the server produces, the requests handed to handlers and the access-log entries are the same however the stream is split into reads and into readiness notifications.", "quantifier": "every octet stream, every segmentation, every schedule of process calls", "why_tests_cant": "The number of segmentations is exponential in an unbounded stream.", "anchors": ["lib/http2_conn.cpp:fill_read_buffer", "lib/http2_conn.cpp:try_read_frame", "lib/http2_conn.cpp:internal_process"]}
{"id": "C28", "title": "Nothing happens before a valid connection preface", "statement": "No handler runs, no octet is sent to the client and no log entry is written unless the first 24 octets received are exactly the HTTP/2 connection preface; any other 24 octets end the connection.", "quantifier": "every octet stream and schedule", "why_tests_cant": "All wrong prefaces and all schedules.", "anchors": ["lib/http2_conn.cpp:read_preface"]}
{"id": "C29", "title": "One response per request, in order, on its stream", "statement": "The octets queued for the client parse as: one server SETTINGS frame, then for each client frame in order its effect: one SETTINGS ACK per non-ACK SETTINGS, and per HEADERS one response HEADERS frame on the same stream followed by that response's DATA frames, with END_STREAM on exactly the last frame of each response; nothing else.", "quantifier": "every sequence of client frames and every handler", "why_tests_cant": "Histories are unbounded; interleavings and handler results arbitrary.", "anchors": ["lib/http2_conn.cpp:process_frame", "lib/http2_conn.cpp:process_request", "lib/http2_conn.cpp:write_headers_response", "lib/http2_conn.cpp:write_data_response"]}
{"id": "C30", "title": "Response bodies are framed losslessly", "statement": "The DATA frames of a response carry, concatenated, exactly the handler's body; each payload is between 1 and 16256 octets, each frame header length equals its payload length, and END_STREAM is set on the last DATA frame only.", "quantifier": "every body and stream id", "why_tests_cant": "Bodies are unbounded; boundaries at every multiple of the chunk size.", "anchors": ["lib/http2_conn.cpp:write_data_response"]}
{"id": "C31", "title": "Response header contents", "statement": "Every response begins with :status equal to the handler's status code, then the handler's headers in order, then content-length equal to the decimal body size when the body is non-empty, then server and x-powered-by.", "quantifier": "every request and every handler result", "why_tests_cant": "All handler outputs.", "anchors": ["lib/http2_conn.cpp:process_request"]}
{"id": "C32", "title": "Octets reach the client in order, without loss or duplication", "statement": "At every moment the octets accepted by the transport followed by the octets still buffered are exactly the octets queued so far, for every pattern of short writes, would-block results and failures.", "quantifier": "every schedule of transport results", "why_tests_cant": "Schedules are unbounded.", "anchors": ["lib/http2_conn.cpp:flush_write_buffer", "lib/transports/tcp_transport.cpp:TcpTransport::write"]}
{"id": "C33", "title": "Receive buffering is bounded and never wedges", "statement": "The receive buffer stays below 65536 octets at all times, and whenever reading stops because it is full a complete frame or a protocol error is available to be processed.", "quantifier": "every client and every schedule", "why_tests_cant": "Adversarial client behaviour over unbounded histories.", "anchors": ["lib/http2_conn.cpp:fill_read_buffer", "lib/http2_conn.cpp:try_read_frame"]}
{"id": "C34", "title": "Processing a readiness notification terminates", "statement": "Every call that processes a connection returns, without an exception, given that the client's available data is finite and contains none of the malformed frames of C72.", "quantifier": "every connection state and every finite transport behaviour", "why_tests_cant": "Termination on all inputs.", "anchors": ["lib/http2_conn.cpp:internal_process"]}
{"id": "C35", "title": "One client cannot monopolise the server", "statement": "The number of frames handled in a single processing call is bounded by a constant independent of the client.", "quantifier": "every client", "why_tests_cant": "Needs arbitrarily long client inputs.", "anchors": ["lib/http2_conn.cpp:internal_process", "lib/http2_server.cpp:handle_connection_events"]}
{"id": "C36", "title": "No response is left unsent while waiting for the client", "statement": "When processing reports that it only waits for more client data, no queued octet is still unsent.", "quantifier": "every history", "why_tests_cant": "Histories unbounded.", "anchors": ["lib/http2_conn.cpp:internal_process"]}
{"id": "C37", "title": "Protocol errors are announced", "statement": "When a connection ends because of a protocol error a GOAWAY frame is handed to the transport before the connection is dropped.", "quantifier": "every erroneous client stream", "why_tests_cant": "All error paths.", "anchors": ["lib/http2_conn.cpp:internal_process", "lib/http2_conn.cpp:close", "lib/http2_conn.cpp:write_goaway"]}
{"id": "C38", "title": "Handler failures are contained", "statement": "If a handler raises a standard exception the client gets a 500 response on that stream, and later frames are processed as if the handler had returned a response with status 500 and no headers.", "quantifier": "every request history and every failing handler", "why_tests_cant": "Histories unbounded.", "anchors": ["lib/http2_conn.cpp:process_request"]}
{"id": "C39", "title": "Oversized frames end the connection", "statement": "A frame header announcing more than 16384 octets ends the connection without any further handler call or queued response frame; a frame of at most 16384 octets is never refused for its size.", "quantifier": "every frame header and state", "why_tests_cant": "2^24 lengths times all histories.", "anchors": ["lib/http2_conn.cpp:try_read_frame"]}
{"id": "C40", "title": "Requests received before the client closes are answered", "statement": "Every complete request that arrives before the client's end of stream is handed to its handler.", "quantifier": "every client stream and schedule", "why_tests_cant": "Schedule dependent.", "anchors": ["lib/http2_conn.cpp:fill_read_buffer", "lib/http2_conn.cpp:internal_process"]}
{"id": "C41", "title": "Unknown frame types have no effect", "statement": "A frame of a type the server does not implement changes nothing but the input position: deleting all such frames from the stream changes no output, handler call or log entry.", "quantifier": "every stream with any number of such frames anywhere", "why_tests_cant": "Unbounded streams.", "anchors": ["lib/http2_conn.cpp:process_frame"]}
{"id": "C42", "title": "PING is acknowledged", "statement": "Every PING frame without ACK is answered with a PING ACK carrying the same payload.", "quantifier": "every history", "why_tests_cant": "Histories unbounded.", "anchors": ["lib/http2_conn.cpp:process_frame"]}
{"id": "C43", "title": "Header blocks may span CONTINUATION frames", "statement": "A request whose header block is split into HEADERS and CONTINUATION frames is handled like the unsplit request.", "quantifier": "every split of every block", "why_tests_cant": "All split points.", "anchors": ["lib/http2_conn.cpp:process_frame"]}
{"id": "C44", "title": "Flow control is honoured", "statement": "The server never sends more DATA octets on a stream or connection than the client's flow-control windows allow.", "quantifier": "every history of window updates and bodies", "why_tests_cant": "Histories unbounded.", "anchors": ["lib/http2_conn.cpp:write_data_response", "lib/http2_conn.cpp:process_frame"]}
{"id": "C45", "title": "Dropped connections stay dropped", "statement": "After a client GOAWAY or end of stream or a protocol error the connection is reported for removal as soon as its output is drained, and no further handler runs.", "quantifier": "every history", "why_tests_cant": "Histories unbounded.", "anchors": ["lib/http2_conn.cpp:internal_process"]}
{"id": "C46", "title": "Idle timeout measurement", "statement": "A connection is considered timed out exactly when strictly more than five seconds passed since the last successful handshake, read or write (or its creation).", "quantifier": "every history of transport results with timestamps", "why_tests_cant": "Histories unbounded.", "anchors": ["lib/http2_conn.cpp:has_timed_out", "lib/http2_conn.cpp:update_last_activity"]}
{"id": "C47", "title": "Connection limit", "statement": "The server never holds more than 128 connections, and a connection arriving at the limit is closed without affecting the others.", "quantifier": "every history of accepts, events, timeouts and removals", "why_tests_cant": "Histories unbounded.", "anchors": ["lib/http2_server.cpp:handle_incoming_connection", "lib/http2_server.cpp:establish_conn"]}
{"id": "C48", "title": "Readiness registration matches connections", "statement": "Between loop iterations the set of descriptors registered with the poller is exactly the listener plus the live connections.", "quantifier": "every history in which registration succeeds", "why_tests_cant": "Invariant over histories.", "anchors": ["lib/http2_server.cpp:establish_conn", "lib/http2_server.cpp:handle_connection_events", "lib/http2_server.cpp:reap_idle_connections", "lib/pollers/epoll_poller.cpp"]}
{"id": "C49", "title": "Idle connections are reaped, active ones kept", "statement": "After every loop iteration's reaping step no connection idle for more than five seconds remains and no other connection was removed by it.", "quantifier": "every set of connections and clock value", "why_tests_cant": "All sets and clocks.", "anchors": ["lib/http2_server.cpp:reap_idle_connections"]}
{"id": "C50", "title": "Connections are isolated from each other", "statement": "Handling events of one connection changes neither the state nor the output of any other connection, and an event is never delivered to a connection that reuses the descriptor of one closed in the same batch.", "quantifier": "every batch of events and every set of connections", "why_tests_cant": "Descriptor reuse schedules.", "anchors": ["lib/http2_server.cpp:start", "lib/http2_server.cpp:handle_connection_events"]}
{"id": "C51", "title": "Stopping the server", "statement": "After stop is requested the loop ends after at most the iteration in progress, and start returns reporting termination at the user's request.", "quantifier": "every history", "why_tests_cant": "Histories unbounded.", "anchors": ["lib/http2_server.cpp:start", "lib/http2_server.cpp:stop"]}
{"id": "C52", "title": "Write interest follows pending output", "statement": "When processing a connection reports pending output, the poller watches that connection for writability and readability; a connection without pending output is eventually watched for readability only.", "quantifier": "every history", "why_tests_cant": "Histories unbounded.", "anchors": ["lib/http2_server.cpp:handle_connection_events"]}
{"id": "C53", "title": "The server survives failing accepts", "statement": "A failing accept call (for example connection aborted, too many open files) does not terminate the server.", "quantifier": "every error code", "why_tests_cant": "Needs faults.", "anchors": ["lib/tcp_listener.cpp:try_accept", "lib/http2_server.cpp:handle_incoming_connection"]}
{"id": "C54", "title": "Descriptors are closed exactly once", "statement": "For every sequence of constructing, moving, move-assigning, closing and destroying socket handles, each descriptor ever owned is closed at most once, never while another handle owns it, and exactly once when all handles are gone.", "quantifier": "every operation history", "why_tests_cant": "Ownership histories unbounded.", "anchors": ["lib/socket_fd.cpp:SocketFd"]}
{"id": "C55", "title": "Route precedence", "statement": "A request is dispatched to the first registered route whose method and path equal the request's; only if there is none and the method is GET or HEAD, to the last registered static handler whose prefix matches; otherwise it gets 404.", "quantifier": "every registration history and request", "why_tests_cant": "All registration orders.", "anchors": ["lib/router.cpp:Router::get_handler"]}
{"id": "C56", "title": "Middleware nesting", "statement": "Every request passes through every middleware registered before it exactly once, the first registered outermost, whatever handler is chosen, including static files and the default 404.", "quantifier": "every sequence of registrations and request", "why_tests_cant": "All sequences.", "anchors": ["lib/router.cpp:Router::add_middleware", "lib/router.cpp:Router::get_handler"]}
{"id": "C57", "title": "Static files never escape the root", "statement": "A static-file response with a file's content is only ever produced for a file whose real (symlink-resolved) location lies inside the configured root directory.", "quantifier": "every file system (including symlinks), root and request path", "why_tests_cant": "All paths with .., //, absolute parts and symlinks.", "anchors": ["lib/file_reader.cpp:FileReader::sanitize_path", "lib/static_file_handler.cpp:StaticFileHandler::handle"]}
{"id": "C58", "title": "Static file status codes", "statement": "The static handler answers 403 when the path resolves outside the root, 404 when no readable regular file is there, 500 when reading fails and 200 with the exact file content otherwise; 403/404/500 never carry file content.", "quantifier": "every file system and request", "why_tests_cant": "All cases.", "anchors": ["lib/static_file_handler.cpp:StaticFileHandler::handle", "lib/file_reader.cpp:FileReader::is_readable"]}
{"id": "C59", "title": "HEAD mirrors GET for static files", "statement": "A HEAD request gets the same status and the same header fields as the GET request for the same path, with no body and a content-length equal to the file size.", "quantifier": "every file system and path", "why_tests_cant": "All files including empty ones.", "anchors": ["lib/static_file_handler.cpp:StaticFileHandler::handle", "lib/http2_conn.cpp:process_request"]}
{"id": "C60", "title": "Query strings do not select files", "statement": "Appending a query string to a static path does not change which file is served.", "quantifier": "every path and query", "why_tests_cant": "All paths.", "anchors": ["lib/static_file_handler.cpp:get_relative_path"]}
{"id": "C61", "title": "Content type follows the file name", "statement": "The content type of a static response depends only on the part of the file name after its last dot and is application/octet-stream when the file name has no known extension.", "quantifier": "every directory and file name", "why_tests_cant": "All names.", "anchors": ["lib/file_reader.cpp:FileReader::get_mime_type"]}
{"id": "C62", "title": "One access-log line per request", "statement": "Each request produces exactly one line in the access log.", "quantifier": "every request", "why_tests_cant": "Requests may contain any octets.", "anchors": ["lib/access_log.cpp", "lib/http2_conn.cpp:process_frame"]}
{"id": "C63", "title": "The access log records what was served", "statement": "Method and path recorded in the access log are the ones used to choose the handler.", "quantifier": "every header list", "why_tests_cant": "Header lists with duplicates.", "anchors": ["lib/access_log.cpp", "lib/http2_conn.cpp:get_header"]}
{"id": "C64", "title": "Request statistics", "statement": "At all times total requests equals the number of requests that entered the application, and the per-status counters sum to the number of requests whose handling completed without exception.", "quantifier": "every request history", "why_tests_cant": "Histories unbounded.", "anchors": ["app/server_stats.cpp"]}
{"id": "C65", "title": "Uptime formatting", "statement": "The formatted duration denotes exactly the given number of whole seconds, with each component in its range and no leading zero components shown.", "quantifier": "every duration", "why_tests_cant": "All durations.", "anchors": ["app/status_page.cpp:format_duration"]}
{"id": "C66", "title": "Configuration validation", "statement": "A configuration is accepted exactly when it is cleartext, or names a certificate and a private key; arguments without certificate or key are refused before the server starts.", "quantifier": "every configuration", "why_tests_cant": "All combinations including empty paths.", "anchors": ["lib/server_config.cpp:ServerConfiguration::validate", "app/args.cpp:to_server_config"]}
{"id": "C67", "title": "Custom 404 page", "statement": "With a custom 404 page configured, every response the application produces with status 404 keeps status 404 and carries that page, and every other response is unchanged.", "quantifier": "every handler and request", "why_tests_cant": "All handlers.", "anchors": ["app/main.cpp:run_server"]}
{"id": "C68", "title": "ALPN always selects HTTP/2", "statement": "For every list of protocol names a client can offer, the TLS application-protocol callback returns success and selects h2, pointing into the server's own list; its debug message says that h2 was negotiated exactly when the client offers it.", "quantifier": "every non-empty list of names of 1 to 255 octets, in its encoding on the wire", "why_tests_cant": "All octet lists.", "anchors": ["lib/transports/tls_context.cpp:alpn_callback"]}
{"id": "C69", "title": "Transport results are classified faithfully", "statement": "End of stream is reported exactly for a zero-length read, would-block exactly for the would-block conditions, received octets are passed on unchanged, and everything else is an error.", "quantifier": "every system-call or TLS-library result", "why_tests_cant": "All error codes.", "anchors": ["lib/transports/tcp_transport.cpp", "lib/transports/tls_transport.cpp"]}
{"id": "C70", "title": "Poller event conversion", "statement": "Converting interest sets to the operating system's masks and back preserves read and write interest, and every reported condition the server knows is delivered.", "quantifier": "every mask", "why_tests_cant": "All masks.", "anchors": ["lib/pollers/poller.cpp", "lib/pollers/epoll_poller.cpp", "lib/pollers/poll_poller.cpp"]}
{"id": "C71", "title": "A write that would block is retried unchanged", "statement": "When a transport write reports that it would block, the next write to that transport begins with exactly the same octets, as OpenSSL requires of a retried write.", "quantifier": "every connection history and every schedule of transport results", "why_tests_cant": "Depends on when the transport blocks, over unbounded histories.", "anchors": ["lib/http2_conn.cpp:Http2Connection::flush_write_buffer", "lib/http2_conn.cpp:Http2Connection::enqueue_write"]}
{"id": "C72", "title": "No client can cause undefined behaviour", "statement": "Whatever octets a client sends, processing them never reads outside a buffer or has other undefined behaviour.", "quantifier": "every client octet stream, every segmentation and every connection history", "why_tests_cant": "The inputs that overrun a buffer are particular malformed frames at particular positions; tests show the absence of crashes only for the frames tried, and an overrun inside the receive buffer does not crash.", "anchors": ["lib/http2_conn.cpp:process_frame", "lib/http2_frame_reader.cpp:Http2FrameReader::read_window_update", "lib/hpack/int_decoder.cpp"]}
{"id": "C73", "title": "No frame exceeds the client's maximum frame size", "statement": "No frame the server sends has a payload of more than 16384 octets, the limit that holds until a client raises it.", "quantifier": "every handler response and history", "why_tests_cant": "Header blocks of responses grow with handler-supplied headers without bound; test handlers send small ones.", "anchors": ["lib/http2_conn.cpp:process_request"]}
{"id": "C74", "title": "Back-pressure", "statement": "A request is handed to its handler only when the octets queued for everything before it have been accepted by the transport (the server's initial SETTINGS frame excepted), so a client that does not read cannot make the server accumulate responses.", "quantifier": "every client, every schedule of transport results without partial writes", "why_tests_cant": "It needs a transport that blocks at every possible point of a pipelined connection; tests use transports that accept everything.", "anchors": ["lib/http2_conn.cpp:process_request"]}
{"id": "C75", "title": "No body in responses to HEAD", "statement": "A response the application produces to a HEAD request has no body.", "quantifier": "every request and server configuration", "why_tests_cant": "Which handler and middleware combination answers depends on the configuration; tests try HEAD on existing files only.", "anchors": ["app/main.cpp:run_server", "lib/static_file_handler.cpp"]}
{"id": "C76", "title": "The server leaks no socket and closes none twice", "statement": "At every moment each socket accepted so far is held by exactly one live connection or has been closed, never both and never twice; a connection that is no more has had its socket closed, and no other descriptor of the process is ever closed by the server.", "quantifier": "every history of accepts, refused accepts, events, timeouts and removals, on both pollers", "why_tests_cant": "Leaks and double closes depend on the order of accepts, hangups and timeouts and on descriptor reuse; a run exercises a few orders only.", "anchors": ["lib/http2_server.cpp:33-118", "lib/socket_fd.cpp:13-64", "lib/transports/tcp_transport.cpp"]}
{"id": "C77", "title": "Every reported event is served", "statement": "In each iteration of the server's loop every connection for which the system reports an event is served: it is dropped when the event tells of an error or hang-up, otherwise, when it is readable or writable, its own protocol engine is run once on it, with its own state, and the connection is kept with the resulting state, or dropped and its socket closed if the engine gave it up. A connection that was idle for more than 5 s is dropped; every other one is left exactly as it was. A reported arrival becomes a new connection, and nothing else does.", "quantifier": "every reachable server state and every list of reported events, on both pollers", "why_tests_cant": "Which connections have events together, in which order, and which descriptors are reused within an iteration cannot be enumerated by tests.", "anchors": ["lib/http2_server.cpp:55-143", "lib/pollers/epoll_poller.cpp:73-102", "lib/pollers/poll_poller.cpp:37-69"]}
{"id": "C78", "title": "The application sees one sequence of requests", "statement": "At every moment the state of the application is what results from giving it the requests of all connections there have been, one at a time in one order, with the answers the connections got; what each connection exchanged is its own part of that order.", "quantifier": "every application, every number of connections and interleaving of their events, at every moment of a run", "why_tests_cant": "All interleavings of events of up to 128 connections.", "anchors": ["lib/http2_server.cpp:80-143", "lib/http2_conn.cpp:443-478"]}
{"id": "C79", "title": "The statistics count the requests of all clients", "statement": "With the status page enabled, at every moment the total number of requests kept by the program is the number of requests all clients have made on all connections so far (below 2^64), the number kept for each status code is the number of responses with that status, and the per-status numbers add up to the total.", "quantifier": "every command line with the status page, every number of clients and interleaving of their events, at every moment of a run", "why_tests_cant": "All interleavings of requests on up to 128 connections, including connections that are dropped half-way.", "anchors": ["app/server_stats.cpp:16-33", "app/main.cpp:19-60", "lib/http2_server.cpp:80-143", "lib/http2_conn.cpp:443-478"]}
{"id": "C80", "title": "Every request to the program is answered from its command line and the files", "statement": "Every request that reaches the shipped program, on any connection, gets exactly one answer and no handler fails: the status page, a test route, the content (or for HEAD the size) and type of the published file the path leads to, 403 for places outside the published directory, if there is no such directory or if the way is barred (a directory that may not be searched, too many links), 404 for anything else; a path that names nothing is read as text from the first missing component on (\"..\" takes back a name) and the same rules apply to the result; with a 404 page configured its content and type replace those of every 404. What other clients do makes no difference.", "quantifier": "every command line, file system, number of clients, request and interleaving", "why_tests_cant": "Unbounded families of paths, symbolic links and interleavings of clients.", "anchors": ["app/main.cpp:19-60", "app/test_routes.cpp:7-36", "app/status_page.cpp:33-247", "lib/static_file_handler.cpp", "lib/router.cpp", "lib/http2_conn.cpp:443-478"]}
{"id": "C81", "title": "Octets in, octets out", "statement": "On every connection of the shipped program that sent the preface, what the program has to send is its SETTINGS frame, then for each client frame in order the answer HTTP/2 prescribes (acknowledgement of SETTINGS; HEADERS and DATA frames of the program's response to each request, with the fields HPACK gives for the client's field blocks), at most one GOAWAY, and nothing else; a client with the default HPACK table can read all response fields.", "quantifier": "every command line, file system that fits in memory, number of clients and sequence of received octets, cut into reads in any way", "why_tests_cant": "Infinitely many octet streams, and HPACK state that depends on everything sent before.", "anchors": ["app/main.cpp:19-60", "lib/http2_conn.cpp", "lib/hpack/header_block_encoder.cpp", "lib/http2_server.cpp:55-143"]}
{"id": "C82", "title": "The access log of the whole server", "statement": "With the access log on, the file holds, in the order in which requests were handled on all connections together, one line for every response, in Combined Log Format: the address of the client whose request it was ('-' if it cannot be found out), the local time in CLF form with the sign and size of the time zone, method and path, status and number of body octets of the response, referer and user agent or '-'. A request for which the handler failed with an unknown exception has no line. If no field has a line break the number of lines is the number of responses.", "quantifier": "every application, number of clients, interleaving of their events, peer address, time and time zone, at every moment of a run", "why_tests_cant": "All interleavings of requests of several clients, all times and zones.", "anchors": ["lib/access_log.cpp", "lib/http2_conn.cpp:443-478", "lib/http2_server.cpp:55-143"]}
{"id": "C83", "title": "The access log does not depend on the console log level", "statement": "Whatever log level is chosen, the access log is written when an access log file is given and can be opened, and not otherwise.", "quantifier": "every log level and log file path", "why_tests_cant": "Tests run with one level; whether a combination of options silences the log is not visible in any unit test.", "anchors": ["app/main.cpp:62-120", "lib/access_log.cpp", "app/args.cpp"]}
{"id": "C84", "title": "Every log level that the command line takes works", "statement": "For every value of --log-level that the option parser takes, the program starts: no exception leaves main.", "quantifier": "every spelling of every level", "why_tests_cant": "All spellings in upper and lower case; the failing ones are not in any test.", "anchors": ["app/args.cpp", "app/main.cpp:92-120"]}
{"id": "C85", "title": "What ends the program", "statement": "SIGINT and SIGTERM, at any moment, end the loop after the current iteration and the program exits with 0. A SIGPIPE caused by a client that went away does not. A SIGPIPE because nobody reads standard output or standard error any more ends the program.", "quantifier": "every sequence of loop iterations and signals, every command line and file system", "why_tests_cant": "Signals at every moment of every run.", "anchors": ["app/signal_handler.cpp", "app/main.cpp:92-120", "lib/http2_server.cpp:120-151"]}
{"id": "C86", "title": "The status page shows the true numbers", "statement": "Whoever asks for /_ion/status, on whichever connection and whenever, gets a page that shows the number of requests received so far on all connections (this one included), for every status code with which earlier requests were answered how many there were, in ascending order and no other codes, and the time since the start in days, hours, minutes and seconds; its foot names the version and the instance.", "quantifier": "every run of the program, every request for the page in it", "why_tests_cant": "The numbers depend on the whole history of all connections; the page is a string put together from pieces, and a test sees a few of them.", "anchors": ["app/status_page.cpp:33-247", "app/server_stats.cpp:16-33", "app/server_stats.h"]}
{"id": "C87", "title": "The average latency on the status page", "statement": "The average latency shown is the mean of the durations of the requests answered before, to the nearest hundredth of a millisecond (up to the precision of double), and the sum it is made from does not overflow.", "quantifier": "every run of the program with a clock that does not go backwards, every request for the page in it", "why_tests_cant": "Rounding of four floating-point operations and of the printing, for every total and every number of requests; durations in tests are not reproducible.", "anchors": ["app/status_page.cpp:45-46", "app/status_page.cpp:212-213", "app/server_stats.cpp:16-33"]}
{"id": "C88", "title": "A TLS connection is given up only for a reason of its own", "statement": "When the server drops a TLS connection because the transport reports a failure or the end of the connection, that failure or end happened on this very connection; in particular a connection that merely has nothing to read is not dropped because another client's connection failed.", "quantifier": "every sequence of TLS calls for any number of connections, every way each of them goes", "why_tests_cant": "It takes a failure on one connection and an idle read on another with no handshake between them; which connections are hit depends on the order of readiness events.", "anchors": ["lib/transports/tls_transport.cpp:40-70", "lib/transports/tls_transport.cpp:94-147", "lib/http2_conn.cpp:134-171"]}
{"id": "C89", "title": "What TLS connections obtain from the TLS library is given back exactly once", "statement": "Every TLS object made for a connection is freed at most once, never while a connection still uses it, and while the connection's socket is still open; however connections are created, moved, assigned and destroyed, when all of them are gone every object has been freed and every socket closed. The TLS context is freed exactly once whatever its set-up meets, and exists if and only if nothing failed.", "quantifier": "every history of constructions, moves, assignments and destructions of TLS connections and socket handles, every failure of the library's calls", "why_tests_cant": "The failing branches need a library that fails on demand, and a double free or a free after the descriptor was reused shows only for particular orders of moves and destructions.", "anchors": ["lib/transports/tls_transport.cpp:15-38", "lib/transports/tls_transport.cpp:72-78", "lib/transports/tls_context.cpp:10-64", "lib/socket_fd.cpp"]}
{"id": "C90", "title": "Sockets are set up as they should be, whatever the system's calls answer", "statement": "start(port) either has a socket that listens on the given port on every address, is non-blocking and was made address-reusable before it was bound, or throws with nothing left open; it throws only if some call failed. Every accepted socket is non-blocking, keeps its other flags and has TCP_NODELAY set unless the system refuses that; EAGAIN and EINTR mean no connection; any other failure is an exception, and the socket just accepted is closed. At any moment the process has exactly the listening socket and the accepted sockets not yet closed, no call is made on a descriptor that is not open, and in the end all of them are closed.", "quantifier": "every port, every system (each call may answer anything its manual page allows, depending on all earlier calls), every number of connections closed in any order, either byte order", "why_tests_cant": "Failures of fcntl, setsockopt, bind and listen at each point cannot be provoked one by one, and a leaked or twice closed descriptor shows only when descriptors are reused.", "anchors": ["lib/tcp_listener.cpp:29-104", "lib/http2_server.cpp:120-146", "lib/socket_fd.cpp"]}
{"id": "C91", "title": "A TLS handshake goes on when it can", "statement": "While a connection's TLS handshake is unfinished the server waits for what the handshake waits for: when the TLS library wants to read, the handshake goes on as soon as the socket is readable; when it wants to write, as soon as the socket is writable.", "quantifier": "every run of the server on either poller, every connection whose handshake is unfinished, every set of events the system reports", "why_tests_cant": "A handshake that wants to write needs a full socket buffer during the handshake, which a test on one machine practically never sees.", "anchors": ["lib/transports/tls_transport.cpp:40-70", "lib/http2_conn.cpp:329-347", "lib/http2_server.cpp:33-118"]}
{"id": "C92", "title": "A server that runs listens", "statement": "Whenever the server is running, its listening socket is registered with the system for incoming connections; after a failed registration start does not go on as if nothing had happened.", "quantifier": "every run of the server on either poller, every answer to the registration", "why_tests_cant": "Registration fails only when system limits are exhausted; the consequence is that nothing ever happens, which a test cannot observe.", "anchors": ["lib/http2_server.cpp:120-146", "lib/pollers/epoll_poller.cpp:51-63"]}
{"id": "C93", "title": "A client that does not get to the point is disconnected in bounded time", "statement": "A connection whose TLS handshake is unfinished is closed at the first check later than five seconds after it was accepted. A client that never completes the connection preface is closed after at most 125 seconds plus 24 times the longest iteration of the loop, however it spreads its octets: each check is put off only by the handshake, by received octets and by completed writes, and before the preface there are no writes.", "quantifier": "every run of the server on either poller, every clock within each iteration, every timing of the client's octets", "why_tests_cant": "The slowest admissible client takes minutes, and the bound is about all timings, not about one slow client.", "anchors": ["lib/http2_server.cpp:55-66", "lib/http2_conn.cpp:512-518", "lib/http2_conn.cpp:329-347"]}
{"id": "C94", "title": "After a failed write nothing more is done for the client", "statement": "Once writing to a client has failed for a reason other than that it would block, no request of this client is handled any more and none is logged, and the connection is closed.", "quantifier": "every conversation, every failure of every write, every later behaviour of the client and the transport", "why_tests_cant": "The failure can strike at any write, with any number of frames already received, and whether the connection lingers shows only in the absence of a close.", "anchors": ["lib/http2_conn.cpp:484-510", "lib/http2_conn.cpp:349-405", "lib/http2_server.cpp:80-118"]}
{"id": "C95", "title": "Output of any size can be written over TLS", "statement": "Pending output of any positive size can be handed to the TLS library, which can then take it, and what it takes is accounted for exactly.", "quantifier": "every size of the output buffer, every answer of the TLS library", "why_tests_cant": "The boundary is at two gibibytes.", "anchors": ["lib/transports/tls_transport.cpp:122-149"]}
{"id": "C96", "title": "A handler obtained from the router can be called later", "statement": "The handler Router::get_handler returns for a path and a method answers, whenever it is called while the router exists, as it would have when it was obtained: a route by its handler, a static file by its response for that path and method, anything else by 404, whatever is registered with the router or done with the method string in between.", "quantifier": "every history of registrations, of strings made, assigned and destroyed, and of handlers obtained; every later moment; every request it is called with", "why_tests_cant": "A reference that dangles often still works; which registrations move the vector's elements depends on its capacity.", "anchors": ["lib/router.cpp:11-46", "lib/router.h:21-35"]}
{"id": "C97", "title": "A read that fails ends the connection", "statement": "When reading from a client fails for a reason other than that nothing has arrived yet, the connection is closed.", "quantifier": "every run of the server, every connection, every failure of every read", "why_tests_cant": "Reads can fail at any moment of a conversation and in ways that depend on the TLS library; a connection that is kept shows only as load.", "anchors": ["lib/http2_conn.cpp:134-175", "lib/http2_conn.cpp:349-405", "lib/http2_server.cpp:80-118"]}
{"id": "C98", "title": "The server can be started again", "statement": "After start has ended, by stop or by an exception, it can be called again and serves clients as it did the first time; connections that are still there are served on or closed.", "quantifier": "every state in which start can end, every later run, both pollers", "why_tests_cant": "It depends on everything the first run left behind: the stop flag, connections, descriptors and what the poller knew of them.", "anchors": ["lib/http2_server.cpp:55-66", "lib/http2_server.cpp:120-151", "lib/http2_server.h:35-40", "lib/pollers/epoll_poller.cpp:10-21"]}
{"id": "C99", "title": "Signals and a lost console do not get in the way of an orderly end", "statement": "Whatever signals arrive at whatever moment and whatever becomes of standard output: a signal handler never uses a server that no longer exists; SIGINT and SIGTERM that arrive after the handlers are set up and before the server runs stop it as soon as it does; and unless somebody sends the process a signal before the handlers are set up or after start has ended, the process ends by its exit code.", "quantifier": "every sequence of signals between the steps of the program, every state of the console at each message, every command line and every run of the server", "why_tests_cant": "The moments that matter are a few instructions long and come at the start and the end of the process.", "anchors": ["app/main.cpp:19-60", "app/main.cpp:92-120", "app/signal_handler.cpp:7-47"]}
{"id": "C100", "title": "Frames that HTTP/2 declares connection errors end the connection", "statement": "After a frame, other than HEADERS, with which the client commits a connection error (RFC 9113: wrong stream, wrong size, forbidden value, out of place), no further frame is handled and the server does not wait for more.", "quantifier": "every conversation, every such frame at every place in it", "why_tests_cant": "There are fifteen ways to break the rules for each frame type, in every state of the connection; tests try a few.", "anchors": ["lib/http2_conn.cpp:199-299"]}
{"id": "C101", "title": "Stream identifiers are checked", "statement": "HEADERS frames on stream 0, on streams of even number or on streams that are not new, and DATA frames on streams that were not opened, are not handled like good ones.", "quantifier": "every conversation, every assignment of stream identifiers to its frames", "why_tests_cant": "Tests use clients that number their streams correctly.", "anchors": ["lib/http2_conn.cpp:229-299"]}
{"id": "C102", "title": "Malformed requests never reach the application", "statement": "The application sees exactly the requests that are well-formed (RFC 9113, 8.2 and 8.3): required pseudo-fields once each and first, lower-case names, no fields that belong to the connection.", "quantifier": "every sequence of header blocks of every client", "why_tests_cant": "Client libraries used in tests cannot produce malformed requests.", "anchors": ["lib/http2_conn.cpp:437-480"]}
{"id": "C103", "title": "Clients can send request bodies of any size", "statement": "A client that heeds flow control gets enough credit to send its request bodies.", "quantifier": "every conversation, every order in which frames of both sides pass, every number and size of uploads", "why_tests_cant": "The credit a client starts with is enough for the uploads of a test.", "anchors": ["lib/http2_conn.cpp:110-132", "lib/http2_conn.cpp:229-299"]}
{"id": "C104", "title": "When the server waits for a client, it has read everything that arrived", "statement": "A call that reports that it waits for input has read until the transport had nothing left (or has done nothing because the handshake is not over); with edge-triggered or buffering transports nothing is left behind.", "quantifier": "every connection in every state, every sequence of results of reads and writes, every way the octets are cut into reads", "why_tests_cant": "What is left behind shows only if the client sends nothing more, and depends on how the octets were cut.", "anchors": ["lib/http2_conn.cpp:134-188", "lib/http2_conn.cpp:349-435"]}
{"id": "C105", "title": "Responses carry one true content-length", "statement": "A response with a body has one content-length field, which is the size of the body; one without has none, unless it answers HEAD.", "quantifier": "every handler and every response; for the shipped program every run, command line and file system", "why_tests_cant": "Handlers in tests set no content-length of their own.", "anchors": ["lib/http2_conn.cpp:437-480", "lib/static_file_handler.cpp:40-75"]}
{"id": "C106", "title": "A Huffman tree decodes exactly the codes inserted", "statement": "Inserting a code into a Huffman tree fails exactly if its length is not 1 to 31 or the same code is there already. After any insertions, decoding reads code after code, at each point the shortest inserted code that matches; what is left over is ignored unless a zero follows the first bit that leads to no code, which is an error. If no code starts another, a text written with the codes is read back.", "quantifier": "every sequence of insertions, every octet string", "why_tests_cant": "All code tables and all inputs; only the table of RFC 7541 is used by the program.", "anchors": ["lib/hpack/huffman_tree.cpp:insert_symbol", "lib/hpack/huffman_tree.cpp:decode"]}
{"id": "C107", "title": "The protocol selected is one the client offers", "statement": "The application protocol the server selects during the TLS handshake is among those the client offers (RFC 7301, 3.2).", "quantifier": "every list of protocol names a client can offer", "why_tests_cant": "All octet lists.", "anchors": ["lib/transports/tls_context.cpp:alpn_callback"]}
{"id": "C108", "title": "Clients cannot forge console lines", "statement": "Every line on the console is one message of the server: time, level, text. Whatever a client sends, no line on the console is of its making.", "quantifier": "every sequence of octets, reads, writes and errors on a connection, every path and file system, every log level", "why_tests_cant": "All requests; tests do not read the console octet by octet.", "anchors": ["lib/http2_conn.cpp", "lib/hpack/header_block_decoder.cpp", "lib/static_file_handler.cpp:74-84", "app/main.cpp:103-107"]}
{"id": "C109", "title": "Failures are reported, and only failures", "statement": "A refused header block, a 403 or 500 for a file, and every end of a connection other than by the client or a failed handshake lead to a warning or an error on the console; accepted blocks and files that are served or not there do not; a connection that goes on with a warning or error has met a failed read, an incomplete request or a complaint of its application.", "quantifier": "every sequence of octets, reads, writes and errors on a connection; every header block, path and file system", "why_tests_cant": "All inputs; absence of messages can only be tested case by case.", "anchors": ["lib/http2_conn.cpp", "lib/hpack/header_block_decoder.cpp", "lib/hpack/huffman_tree.cpp", "lib/static_file_handler.cpp", "lib/file_reader.cpp"]}
{"id": "C110", "title": "Console and access log agree", "statement": "At level info the console tells, in order, of the valid preface and of every response entered in the access log, with its status and, if there is a body, its size, and of nothing else; a response reported as sent is sent.", "quantifier": "every sequence of octets, reads, writes and errors on a connection, every application", "why_tests_cant": "All conversations.", "anchors": ["lib/http2_conn.cpp:177-197", "lib/http2_conn.cpp:229-299"]}
{"id": "C111", "title": "One span for each request", "statement": "With tracing on, every request leads to exactly one exported span, in the order of the requests, with the request's method and target, the client's address and the status of the response; with OTEL_SDK_DISABLED=true nothing is exported; tracing does not change what a connection does.", "quantifier": "every sequence of octets, reads, writes and errors on a connection, every application, every value of OTEL_SDK_DISABLED", "why_tests_cant": "All conversations.", "anchors": ["lib/http2_conn.cpp:247-250", "lib/http2_conn.cpp:443-478", "app/main.cpp:83-90", "app/telemetry.cpp:13-32"]}
{"id": "C112", "title": "Console lines name the trace of their request", "statement": "With tracing on, the console lines that a request leads to carry the identifier of the request's trace after time and level, and lines not about a request carry none; with tracing off no line does.", "quantifier": "every sequence of octets, reads, writes and errors on a connection, every application, every level", "why_tests_cant": "All conversations, all interleavings of messages.", "anchors": ["app/trace_id_flag.cpp:7-19", "app/main.cpp:103-107", "lib/http2_conn.cpp:247-283", "lib/http2_conn.cpp:319-327"]}
{"id": "C113", "title": "What is kept for clients is bounded", "statement": "Whatever clients send and however little they read: for each connection the server keeps less than 64 KiB received and not handled, at most its greeting and one answer not yet sent, and at most 64 KiB in each of the two header tables; with at most 128 connections this bounds all of them together. A request given to the application has at most 16384 fields with names and values of at most 4096 octets.", "quantifier": "every sequence of octets, reads, writes and errors on every connection, every application whose answers are bounded; for the shipped program every file system with files of bounded size", "why_tests_cant": "All histories of all connections; tests see some sizes.", "anchors": ["lib/http2_conn.cpp:134-171", "lib/http2_conn.cpp:349-405", "lib/http2_conn.cpp:480-510", "lib/hpack/dynamic_table.cpp:9-37", "lib/http2_server.cpp:68-78"]}
{"id": "C114", "title": "Static files that change while they are served", "statement": "Whatever other programs do to files while a GET or HEAD request for a static file is handled, the answer is 403, 404 or 500 without content, or it is made from one regular file inside the root directory: for GET exactly as many octets as the file had when it was opened, for HEAD its size.", "quantifier": "every file system at every system call, every request path, every root and prefix; files that change, appear, vanish, grow or shrink between any two calls", "why_tests_cant": "The window between check and use is a few microseconds; all interleavings with other programs cannot be tried.", "anchors": ["lib/file_reader.cpp:13-143", "lib/static_file_handler.cpp:37-84"]}
{"id": "C115", "title": "The console tells the truth about connections", "statement": "Who follows the console knows the connections of the server: every client accepted is told of once, in order and with its address (or that it is unknown), whether it is served or turned away; every total shown is the number of lines about new connections minus the number of lines about ended ones, and this number is that of the connections; idle connections are named by descriptor exactly when five seconds have passed without success; the first line names the port and the last one why the server stops; the poller complains only when something has failed.", "quantifier": "every sequence of iterations, events, accepts, time-outs, hang-ups and stop requests, every answer of the system calls", "why_tests_cant": "Whether lines add up depends on the whole history of connections, hang-ups and failures.", "anchors": ["lib/http2_server.cpp:33-146", "lib/pollers/epoll_poller.cpp:51-70", "lib/pollers/poll_poller.cpp:37-74", "lib/tcp_listener.cpp:77-100", "lib/socket_fd.cpp:32-53", "lib/stop_reason.cpp:9-20"]}
{"id": "C116", "title": "Failures of a transport are reported with their reason, and nothing else is", "statement": "Every read, write, handshake or shutdown of a TCP or TLS connection that fails is reported by one message of level error which says what failed and why (the system's text, the TLS library's description, or the numbers of a partial write); calls that succeed, that have to wait or that find the connection closed by the peer leave no such message, and a connection is reported only for what happened on it.", "quantifier": "every result of the system calls and of the TLS library, every sequence of calls for any connections, every content of the library's error queue", "why_tests_cant": "Which message appears depends on errors of the network and on what earlier calls, for other connections, left in the queue.", "anchors": ["lib/transports/tcp_transport.cpp:25-69", "lib/transports/tls_transport.cpp:40-70", "lib/transports/tls_transport.cpp:94-147"]}
{"id": "C117", "title": "Requests are served by a process that cannot gain privileges", "statement": "Before it serves anything the program sets no_new_privs for its process, so that neither it nor what it starts can gain privileges; this remains so whatever is requested, and GET /_tests/no_new_privs tells it truly (200 or 500) in every request on every connection.", "quantifier": "every state inherited, every answer of the system, every run of the server with every client", "why_tests_cant": "A test runs where the system carries it out; the promise is about every system and every request.", "anchors": ["app/proc_ctrl.cpp:11-35", "app/main.cpp:77-81", "app/main.cpp:111-113", "app/test_routes.cpp:14-19"]}
{"id": "C118", "title": "Secrets of TLS connections go to the configured file only", "statement": "The secrets of TLS connections are written only if SSLKEYLOGFILE is set, only to the file it names, which keeps its old content and grows by all lines in their order, each on a line of its own; if the file cannot be opened nothing is written.", "quantifier": "every value of the variable, every sequence of lines, all files", "why_tests_cant": "That no other file is touched and that no line is lost or cut concerns every file and every sequence of handshakes.", "anchors": ["lib/transports/tls_context.cpp:42-49"]}
{"id": "C119", "title": "The console says what the program is set up to do and why it ends", "statement": "Before it serves, the program announces on the console what its arguments switch on (test routes, status page, static files, access log, disabled telemetry), and nothing that they do not; whether the system let it give up gaining privileges is told too, success only at --log-level debug or trace; a program that cannot make its server says why as its last line, the reason being the first that applies of: no certificate path, no key path, certificate or key file missing, what the TLS library refused; when the server ends the last line says that it exits or what failed. With --log-level off nothing is printed.", "quantifier": "every command line, file system, answer of the system and of the TLS library, any messages while serving", "why_tests_cant": "Tests look for single lines of single command lines; that no other line appears and that reasons are right concerns all combinations.", "anchors": ["app/main.cpp:19-41", "app/main.cpp:62-119", "app/args.cpp:60-71", "lib/server_config.cpp:5-14", "lib/transports/tls_context.cpp:10-38", "app/proc_ctrl.cpp:11-22"]}
{"id": "C120", "title": "Responses are well-formed HTTP messages", "statement": "Every response has exactly one pseudo-field, :status, which comes first and is a number from 200 to 599; every other field has a lower-case name and a value allowed in HTTP/2 and does not belong to the connection (connection, keep-alive, transfer-encoding, ...); responses 204 and 304 have no content.", "quantifier": "every handler, request and conversation; for the shipped program every run, command line and file system", "why_tests_cant": "Clients in tests tolerate or never see such responses; all handlers, statuses and field lists.", "anchors": ["lib/http2_conn.cpp:443-478", "lib/static_file_handler.cpp", "app/status_page.cpp:241-245", "lib/router.cpp"]}
{"id": "C121", "title": "Waiting output reaches a client that goes on reading", "statement": "While output waits for a client whose socket takes some octets of it at least every 5 s, the connection is kept, what is taken is the beginning of what waits, and nothing else is done for that client; once the socket has taken as many octets as were waiting, all of them have been delivered, in order. What was observed of a connection is never forgotten.", "quantifier": "every run of the server, every connection with output waiting, every sequence of amounts taken, whatever other clients do meanwhile", "why_tests_cant": "Slow readers that take a few octets at a time over many iterations, among other traffic.", "anchors": ["lib/http2_conn.cpp:349-364", "lib/http2_conn.cpp:484-510", "lib/http2_server.cpp:80-118"]}
{"id": "C122", "title": "A server that waits for a client owes it nothing", "statement": "When the server waits for more from a client, every frame that the client has sent in full has been handled, and the octets that the client has been given are exactly the server's SETTINGS frame and the answers to these frames; for the shipped program these are the responses that the command line and the files determine.", "quantifier": "every run of the server, every connection, every segmentation, every application; for the program every command line and file system", "why_tests_cant": "All interleavings of clients, partial reads and blocked writes.", "anchors": ["lib/http2_conn.cpp:349-405", "lib/http2_conn.cpp:418-478", "lib/http2_server.cpp:80-118"]}
{"id": "C123", "title": "The reason given for refusing a header block is the true one", "statement": "Of a header block that cannot be read, a beginning can; the one message about the block says what is wrong with the octets after that beginning: an index of zero or beyond the tables (with index and table size), a string cut short or too long (with its length), Huffman code after the end-of-string code (with the position of the bit), a table size above the limit (with the size), an integer that is cut short. Conversely each of these faults is reported in these words.", "quantifier": "every octet string, every dynamic table that header blocks can lead to", "why_tests_cant": "All faults at all positions of all blocks, with all table contents.", "anchors": ["lib/hpack/header_block_decoder.cpp:30-237", "lib/hpack/huffman_tree.cpp:37-71"]}
{"id": "C124", "title": "What clients say in other fields of their requests shows nowhere", "statement": "Two clients whose requests agree in :method, :path and the fields the application looks at get the same octets, whatever other fields (authorization, cookie, ...) their requests have and however these are encoded; what is reported to the application and the log differs only in those other fields, the access logs are equal octet for octet if :method, :path, user-agent and referer agree, and so is what the console shows at level info. The shipped program looks at :method and :path only.", "quantifier": "every pair of frame sequences that differ only in HEADERS frames, every segmentation and timing, every application that does not look at the other fields; for the program every command line and file system", "why_tests_cant": "A relation between all pairs of runs: tests can compare single values only.", "anchors": ["lib/access_log.cpp:11-42", "lib/http2_conn.cpp:229-299", "lib/http2_conn.cpp:443-478", "app/main.cpp:19-60"]}
{"id": "C125", "title": "The messages at level debug are true and one line each", "statement": "At level debug a connection's messages above that level are those of the default level; the fields of every request passed on are shown in order and in one piece; the messages about the connection's state tell a life that begins with the handshake and goes only where it may go, and ends in accordance with what the server does with the connection; the messages about frames tell of exactly the frames that arrived, in order, with their true type, flags, length and stream, and of all of them if the server waits for more; the dynamic tables are shown with their true size, limit and entries; each message is one line of the console.", "quantifier": "every connection, every octet sequence, segmentation, timing and transport error, every application", "why_tests_cant": "All interleavings of messages, table contents and states.", "anchors": ["lib/http2_conn.cpp:126-157", "lib/http2_conn.cpp:199-317", "lib/http2_conn.cpp:349-431", "lib/hpack/dynamic_table.cpp:19-37", "lib/hpack/dynamic_table.cpp:58-64"]}
{"id": "C126", "title": "The messages at level debug about static files are true and one line each", "statement": "At level debug the messages about a request for a static file above that level are those of the default level. The others name the place of the file that is sent (or whose size is sent for HEAD), its true size and the content type sent, or the place where no readable file is; there are none for a refused path or a file that cannot be read, and none for other requests but those about the page for 404. On a connection they follow right after the fields of the request they belong to. No client can put a line of its own on the console this way.", "quantifier": "every file system, every published directory, every request path and method, every connection of the shipped program", "why_tests_cant": "All file systems and all paths; exactly which messages, in both directions.", "anchors": ["lib/file_reader.cpp:13-36", "lib/static_file_handler.cpp:37-84", "app/main.cpp:44-57"]}
{"id": "C127", "title": "At level trace the console is a record of what the transports report", "statement": "Whatever reads, writes and handshakes are made, in whatever order and for whatever connections, the messages at level trace and above are those that go with what each call reports: octets with their true number, waiting, closing, failures. The messages above level debug among them are those of the default level. Whoever reads the messages can tell what was reported, in order and with the numbers of octets, but for successful handshakes, which are not mentioned: equal messages mean equal reports. The message about the protocol says negotiated exactly if the client offers HTTP/2.", "quantifier": "every sequence of calls on any connections, every result of the kernel's and the TLS library's functions, every protocol list", "why_tests_cant": "Unique readability of all message sequences.", "anchors": ["lib/transports/tcp_transport.cpp:25-69", "lib/transports/tls_transport.cpp:40-70", "lib/transports/tls_transport.cpp:94-147", "lib/transports/tls_context.cpp:67-85"]}
{"id": "C128", "title": "At level trace the console shows how each header block is read", "statement": "Whatever header block arrives, the messages about it are those of the representations it consists of by RFC 7541, in their order: the kind and first octet, the index and the table in which the entry is found with its place there, the name and value, what is put into the dynamic table, and changes of its capacity. If the block is refused, the messages are those of the representations before, and then an error. Each field is named by one message. Blocks with equal messages have equal fields.", "quantifier": "every header block, every state of the dynamic table a connection can have", "why_tests_cant": "All blocks and all table states.", "anchors": ["lib/hpack/header_block_decoder.cpp:87-237", "lib/hpack/header_field.h:16-50", "lib/hpack/dynamic_table.cpp:19-37"]}
{"id": "C129", "title": "At level trace the console accounts for every octet of a connection", "statement": "The messages of a connection at level trace tell of the handshake, of each successful read and write, of each write that has to wait and of each DATA frame of each answer, in the order in which these happen, with the true numbers of octets. A body is sent in frames of 16256 octets and one with the rest, and each of these messages says how much is left. The number of octets given as still to be processed is always that of those received so far, less 24 for the preface, less 9 and the length for each frame told of before; a message that there are not enough octets for a preface, a frame header or a frame gives this number and the number needed, and is there only if it is too small. Each round of processing names the state to which the changes of state told so far lead. Without the messages at level trace, what is left are the messages at level debug.", "quantifier": "every connection, all octets received however they are split, all results of the transport, every application whose own messages cannot be taken for these; the shipped program is one", "why_tests_cant": "All sequences of reads, writes and frames.", "anchors": ["lib/http2_conn.cpp:85-108", "lib/http2_conn.cpp:134-227", "lib/http2_conn.cpp:319-405", "lib/http2_conn.cpp:484-510"]}
{"id": "C130", "title": "At levels debug and trace the console tells of every connection and socket the server gives up", "statement": "With the messages of level debug, and with either poller, who counts the connections established less those told to be closed, idle or hung up has the number of connections; the totals shown are right. Each hang-up is told of. At level trace each socket is told of, by its descriptor, when it is closed: while an event or the idle connections are dealt with, exactly those descriptors that were in use and are not afterwards, and while a client is dealt with, that of a client that is turned away or whose arrival ends the server with an exception; of the clients told of, all but those of the connections there are have been told to be closed. With TLS each connection given up is told to be freed, once. That the server waits until it can write is told of whenever an event leaves a connection with output that cannot be written, and then the poller waits for it. That nothing happened is told of with poll only. When the server stops, also by an exception, the last message says that the listening socket is closed. Above level debug these messages are those of C115.", "quantifier": "every server, all clients and their octets, all iterations and results of system calls; for the interest of the poller: epoll_ctl does not lack resources", "why_tests_cant": "All sequences of events, on either poller.", "anchors": ["lib/http2_server.cpp:33-118", "lib/http2_server.cpp:120-146", "lib/socket_fd.cpp:28-30", "lib/socket_fd.cpp:59-65", "lib/pollers/poll_poller.cpp:37-65", "lib/transports/tls_transport.cpp:72-78"]}
{"id": "C131", "title": "A server that has ended and is destroyed leaves nothing behind", "statement": "When start has ended, by stop or by an exception, and the server is destroyed, the descriptors in use are those there were before start; each socket the server had made, that of the listener and those of all clients, those turned away included, has been closed exactly once, and nothing else has been closed, whatever the order in which the connections are destroyed. At level trace as many sockets are told to be closed as were made, those of the remaining connections while the server is destroyed, each once by its descriptor; with TLS the state of each connection told of is told to be freed, just before its socket is closed. Above level debug the destruction is silent.", "quantifier": "every server, all clients and their octets, all iterations and results of system calls after the listener was made, every order of destruction, both pollers", "why_tests_cant": "All runs, all ways they end, all orders.", "anchors": ["lib/http2_server.cpp:33-78", "lib/http2_server.cpp:120-146", "lib/http2_server.h:35-40", "lib/socket_fd.cpp:28-30", "lib/socket_fd.cpp:59-65", "lib/transports/tls_transport.cpp:72-78"]}
{"id": "C132", "title": "Connections are ended in order", "statement": "A connection that the server ends, while its client has done nothing to end it and its transport works, is shut down (close_notify of TLS, shutdown of TCP) before its socket is closed.", "quantifier": "every server, all clients and their octets, all applications, all results of system and library calls, both pollers", "why_tests_cant": "All ways in which a connection can end, after any history of all connections.", "anchors": ["lib/http2_conn.cpp:349-416", "lib/http2_server.cpp:80-118", "lib/transports/tls_transport.cpp:80-88", "lib/transports/tcp_transport.cpp:64-69"]}
{"id": "C133", "title": "Why a server cannot listen or accept is told", "statement": "If start ends by an exception of the listening socket, because it cannot be made, bound or listened on or because accepting a client fails, the text of the exception, which is also the last line of the program, names the system call that failed and gives the system's reason; no earlier call of the same function had failed, and after it sockets are closed and nothing else is done. Of setting up the socket nothing is written if it succeeds, and nothing above level trace if it does not. Over the whole life of the listener the messages are exactly: one for each socket closed, with its descriptor, and one warning with the system's reason for each client for which TCP_NODELAY is refused; so each socket made is told to be closed as often as its descriptor was given out.", "quantifier": "every port, every system (each answer may depend on all calls before), any number of clients accepted and closed in any order", "why_tests_cant": "All failures of system calls, at all times.", "anchors": ["lib/tcp_listener.cpp:29-104", "lib/socket_fd.cpp:28-30", "lib/socket_fd.cpp:59-65", "lib/http2_server.cpp:120-146", "app/main.cpp:109-119"]}
