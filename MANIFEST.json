{
 "claims": [
  {
   "property": "C01",
   "status": "proved",
   "theorems": [
    "C01_int_round_trip"
   ],
   "note": ""
  },
  {
   "property": "C02",
   "status": "proved",
   "theorems": [
    "C02_int_decode_exact",
    "C02_int_decode_complete",
    "C02_int_decode_consumption"
   ],
   "note": ""
  },
  {
   "property": "C03",
   "status": "proved",
   "theorems": [
    "C03_int_encode_minimal",
    "C03_int_encode_bad_prefix"
   ],
   "note": ""
  },
  {
   "property": "C04",
   "status": "proved",
   "theorems": [
    "C04_table_canonical",
    "C04_prefix_free",
    "C04_complete",
    "C04_eos_distinct",
    "C04_tree_builds"
   ],
   "note": ""
  },
  {
   "property": "C05",
   "status": "proved",
   "theorems": [
    "C05_huffman_round_trip"
   ],
   "note": ""
  },
  {
   "property": "C06",
   "status": "proved",
   "theorems": [
    "C06_huffman_decode_sound",
    "C06_huffman_decode_exact"
   ],
   "note": ""
  },
  {
   "property": "C07",
   "status": "partial",
   "theorems": [
    "C07_padding_refuted",
    "C07_long_padding_refuted",
    "C07_valid_padding_partial"
   ],
   "note": "False of the code: zero bits, a whole octet of ones, and an encoded EOS are accepted as padding (refuted with witnesses). Proved: valid padding is accepted with the right result."
  },
  {
   "property": "C08",
   "status": "proved",
   "theorems": [
    "C08_encoded_size",
    "C08_encoded_padding",
    "C08_decoded_size"
   ],
   "note": ""
  },
  {
   "property": "C09",
   "status": "proved",
   "theorems": [
    "C09_accounting"
   ],
   "note": ""
  },
  {
   "property": "C10",
   "status": "proved",
   "theorems": [
    "C10_insert_evicts_oldest",
    "C10_resize_evicts_oldest",
    "C10_longest_fitting_unique"
   ],
   "note": ""
  },
  {
   "property": "C11",
   "status": "proved",
   "theorems": [
    "C11_find",
    "C11_find_name",
    "C11_get"
   ],
   "note": ""
  },
  {
   "property": "C12",
   "status": "proved",
   "theorems": [
    "C12_decoder_sound"
   ],
   "note": ""
  },
  {
   "property": "C13",
   "status": "proved",
   "theorems": [
    "C13_decoder_complete",
    "C13_decoder_exact"
   ],
   "note": ""
  },
  {
   "property": "C14",
   "status": "partial",
   "theorems": [
    "C14_defined_refuted",
    "C14_defined_partial",
    "C14_undefined_exactly"
   ],
   "note": "False of the code: a block ending inside a multi-octet index integer reads past its end. Proved: exactly those blocks are undefined."
  },
  {
   "property": "C15",
   "status": "proved",
   "theorems": [
    "C15_decoder_bounds",
    "C15_refused_block_bounds"
   ],
   "note": ""
  },
  {
   "property": "C16",
   "status": "proved",
   "theorems": [
    "C16_absent_index_rejected",
    "C16_absent_exactly"
   ],
   "note": ""
  },
  {
   "property": "C17",
   "status": "proved",
   "theorems": [
    "C17_smaller_table_clients"
   ],
   "note": ""
  },
  {
   "property": "C18",
   "status": "partial",
   "theorems": [
    "C18_reading_unique",
    "C18_new_value_for_older_name_refuted",
    "C18_far_field_refuted",
    "C18_headers_survive_partial",
    "C18_unreachable_lost"
   ],
   "note": "False of the code: a field name found only in the dynamic table at index 63 or more, or a field at index 127 or more, is written with a wrong prefix. Proved: sections all of whose fields avoid those indices survive, for any history. Proved the other way round (C18_unreachable_lost): the first such field of a connection is not received as sent, whatever follows it, but for three kinds of names described there."
  },
  {
   "property": "C19",
   "status": "proved",
   "theorems": [
    "C19_few_fields_survive"
   ],
   "note": ""
  },
  {
   "property": "C20",
   "status": "partial",
   "theorems": [
    "C20_default_client_refuted",
    "C20_default_client_partial",
    "C20_exactly",
    "C20_one_value_exactly"
   ],
   "note": "False of the code: the encoder assumes a 64 KiB table whatever the client announced, so a default 4096-octet client loses entries. Proved: equal results while the table fits in 4096 octets; and exactly which histories a client with any smaller table reads (C20_exactly): those in which every reference is to an entry it still has, and none of the others at all; C20_one_value_exactly says the same in terms of the fields alone when at most one name has several values."
  },
  {
   "property": "C21",
   "status": "partial",
   "theorems": [
    "C21_high_octets_refuted",
    "C21_encodable_partial",
    "C21_unsigned_char_any_octets"
   ],
   "note": "False of the code on signed-char platforms: octets of 128 or more in a value index the Huffman table with a negative number. Proved: defined when all octets are below 128, and for any octets when char is unsigned."
  },
  {
   "property": "C22",
   "status": "proved",
   "theorems": [
    "C22_parse_exact",
    "C22_parse_unique",
    "C22_serialize",
    "C22_round_trip",
    "C22_stable"
   ],
   "note": ""
  },
  {
   "property": "C23",
   "status": "proved",
   "theorems": [
    "C23_setting",
    "C23_setting_layout",
    "C23_goaway",
    "C23_goaway_layout",
    "C23_window_update",
    "C23_window_update_layout"
   ],
   "note": ""
  },
  {
   "property": "C24",
   "status": "proved",
   "theorems": [
    "C24_settings"
   ],
   "note": ""
  },
  {
   "property": "C25",
   "status": "partial",
   "theorems": [
    "C25_readers_refuted",
    "C25_readers_partial"
   ],
   "note": "False of the code: short WINDOW_UPDATE, GOAWAY and prioritised HEADERS payloads are read out of range. Proved: exactly those are."
  },
  {
   "property": "C26",
   "status": "partial",
   "theorems": [
    "C26_padded_refuted",
    "C26_unpadded_partial",
    "C26_padded_exactly",
    "C26_other_fields_refuted",
    "C26_other_request_refuted"
   ],
   "note": "False of the code: padding is not removed (what is decoded instead: C26_padded_exactly); with 132 octets of padding every request asks for another path (C26_other_fields_refuted). Proved: the fragment is exact without padding."
  },
  {
   "property": "C27",
   "status": "proved",
   "theorems": [
    "C27_segmentation"
   ],
   "note": ""
  },
  {
   "property": "C28",
   "status": "proved",
   "theorems": [
    "C28_preface_first",
    "C28_wrong_preface"
   ],
   "note": ""
  },
  {
   "property": "C29",
   "status": "partial",
   "theorems": [
    "C29_conversation_partial",
    "C29_framing_refuted"
   ],
   "note": "Proved for response header blocks below 2^24 octets, for any client and handler. False beyond: the 24-bit length field wraps and the frames do not parse (refuted with a witness)."
  },
  {
   "property": "C30",
   "status": "proved",
   "theorems": [
    "C30_bodies"
   ],
   "note": ""
  },
  {
   "property": "C31",
   "status": "partial",
   "theorems": [
    "C31_handler_responses",
    "C31_status_refuted"
   ],
   "note": "Proved for every response a handler produces. False for the server's own 400 response to a malformed request, which carries no :status (refuted)."
  },
  {
   "property": "C32",
   "status": "partial",
   "theorems": [
    "C32_no_loss_partial",
    "C32_duplicates_refuted"
   ],
   "note": "Proved unless the transport accepts part of a write and still reports an error. False then (TCP short write): the accepted octets are sent again (refuted)."
  },
  {
   "property": "C33",
   "status": "proved",
   "theorems": [
    "C33_bounded",
    "C33_reading_bounded",
    "C33_never_wedges",
    "C33_waiting_has_room"
   ],
   "note": ""
  },
  {
   "property": "C34",
   "status": "proved",
   "theorems": [
    "C34_returns_or_undefined",
    "C34_returns"
   ],
   "note": "Includes: on any input the call either returns or reaches the undefined behaviour of C72; it never loops or throws."
  },
  {
   "property": "C35",
   "status": "partial",
   "theorems": [
    "C35_unbounded_refuted",
    "C35_input_partial"
   ],
   "note": "False of the code: a single call answers any number of frames (refuted for every n). Proved: the work of a call is bounded by the octets it reads plus the size of the buffer."
  },
  {
   "property": "C36",
   "status": "partial",
   "theorems": [
    "C36_any_writes_partial",
    "C36_unsent_partial",
    "C36_settings_refuted"
   ],
   "note": "Proved except for the server's first SETTINGS frame, which stays unsent after an input of the preface alone (refuted)."
  },
  {
   "property": "C37",
   "status": "partial",
   "theorems": [
    "C37_never_sent_refuted",
    "C37_announced_refuted"
   ],
   "note": "False of the code: a GOAWAY is queued but never written, on any connection (proved in general, with a witness)."
  },
  {
   "property": "C38",
   "status": "proved",
   "theorems": [
    "C38_failures"
   ],
   "note": ""
  },
  {
   "property": "C39",
   "status": "proved",
   "theorems": [
    "C39_oversized_stops",
    "C39_only_reasons"
   ],
   "note": ""
  },
  {
   "property": "C40",
   "status": "partial",
   "theorems": [
    "C40_closing_client_refuted",
    "C40_open_client_partial"
   ],
   "note": "False of the code: a client that closes right after its requests gets no answer (refuted). Proved: every complete frame read by a server that waits for more has been handled."
  },
  {
   "property": "C41",
   "status": "proved",
   "theorems": [
    "C41_unknown_frames"
   ],
   "note": ""
  },
  {
   "property": "C42",
   "status": "partial",
   "theorems": [
    "C42_never_sent_refuted",
    "C42_ping_refuted"
   ],
   "note": "False of the code: PING frames are ignored; no PING is ever sent (proved in general, with a witness)."
  },
  {
   "property": "C43",
   "status": "partial",
   "theorems": [
    "C43_continuation_refuted",
    "C43_first_part_partial"
   ],
   "note": "False of the code: END_HEADERS is not looked at and CONTINUATION is ignored (refuted). Proved: a split block is handled exactly like its first part alone, on any connection; that agrees with the whole block when the other parts are empty."
  },
  {
   "property": "C44",
   "status": "partial",
   "theorems": [
    "C44_window_refuted",
    "C44_never_heeded_refuted",
    "C44_small_bodies_partial"
   ],
   "note": "False of the code: what the client says about windows never makes a difference (refuted in general form, and by a witness of a window exceeded). Proved: the DATA sent are the bodies on their streams, and windows are honoured when the bodies fit the smallest initial sizes."
  },
  {
   "property": "C45",
   "status": "proved",
   "theorems": [
    "C45_end_of_stream",
    "C45_refused_frames"
   ],
   "note": ""
  },
  {
   "property": "C46",
   "status": "proved",
   "theorems": [
    "C46_timeout"
   ],
   "note": ""
  },
  {
   "property": "C47",
   "status": "proved",
   "theorems": [
    "C47_start",
    "C47_limit",
    "C47_arrival"
   ],
   "note": "For every moment of every run (steps defined in SpecServer.v; C47_start shows that start() is made of them)."
  },
  {
   "property": "C48",
   "status": "proved",
   "theorems": [
    "C48_registered",
    "C48_nothing_else"
   ],
   "note": "With enough resources for epoll_ctl, at every moment, also in the middle of a batch; nothing but listener and connections is ever registered, resources or not."
  },
  {
   "property": "C49",
   "status": "proved",
   "theorems": [
    "C49_reaped"
   ],
   "note": ""
  },
  {
   "property": "C50",
   "status": "proved",
   "theorems": [
    "C50_isolated",
    "C50_delivery",
    "C50_own_life"
   ],
   "note": "Isolation of entries (state and output), interest and descriptors; delivery of every event of a batch to the connection it was reported for; every connection's life is a session, so all properties of connections hold for each connection of the server."
  },
  {
   "property": "C51",
   "status": "proved",
   "theorems": [
    "C51_stops",
    "C51_only_then",
    "C51_before"
   ],
   "note": ""
  },
  {
   "property": "C52",
   "status": "proved",
   "theorems": [
    "C52_write_interest",
    "C52_no_longer"
   ],
   "note": "With enough resources for epoll_ctl. 'Eventually' is: as soon as the connection was reported writable and processing left nothing."
  },
  {
   "property": "C53",
   "status": "partial",
   "theorems": [
    "C53_accept_fails_refuted",
    "C53_survives_partial"
   ],
   "note": "False of the code: any accept error other than would-block or interruption is thrown out of start() (refuted for every state of the server). Proved: without such errors and with transports that can be created the loop throws nothing and every iteration ends, except for the undefined behaviour of C72."
  },
  {
   "property": "C54",
   "status": "proved",
   "theorems": [
    "C54_closed_once",
    "C54_all_closed"
   ],
   "note": ""
  },
  {
   "property": "C55",
   "status": "proved",
   "theorems": [
    "C55_destination",
    "C55_precedence"
   ],
   "note": ""
  },
  {
   "property": "C56",
   "status": "proved",
   "theorems": [
    "C56_nesting",
    "C56_every_middleware_once"
   ],
   "note": ""
  },
  {
   "property": "C57",
   "status": "partial",
   "theorems": [
    "C57_contained_refuted",
    "C57_existing_partial",
    "C57_no_dotdot_partial",
    "C57_no_links_partial"
   ],
   "note": "False as stated (C57_contained_refuted): with a symbolic link below the root leading out, 'missing/../link/file' passes the textual check and is opened outside. Proved for requests that name something (C57_existing_partial), for requests without '..' and for roots without symbolic links below them, for any octets in the URL path (what follows a NUL is not seen by the operating system). The file system is taken not to change while one request is handled."
  },
  {
   "property": "C58",
   "status": "partial",
   "theorems": [
    "C58_statuses_partial",
    "C58_missing_partial",
    "C58_no_root",
    "C58_no_content",
    "C58_statuses_refuted"
   ],
   "note": "Exact answers for every request that names something, for missing files asked for without '..', and without a root directory; every answer other than 200 is empty (C58_no_content, no restrictions); the exact answer for every path, from its text, is C80_answers. Refuted for missing paths with '..' by the C57 witness."
  },
  {
   "property": "C59",
   "status": "partial",
   "theorems": [
    "C59_head_partial",
    "C59_length",
    "C59_head_refuted"
   ],
   "note": "Proved for readable non-empty files. Refuted for empty files (only HEAD gets content-length) and for files whose reading fails (HEAD 200, GET 500)."
  },
  {
   "property": "C60",
   "status": "partial",
   "theorems": [
    "C60_query_partial",
    "C60_query_refuted"
   ],
   "note": "Proved for every path below the prefix; refuted for the index page: the prefix itself followed by a query string is always 404."
  },
  {
   "property": "C61",
   "status": "proved",
   "theorems": [
    "C61_content_type",
    "C61_function"
   ],
   "note": ""
  },
  {
   "property": "C62",
   "status": "partial",
   "theorems": [
    "C62_lines_partial",
    "C62_lines_refuted"
   ],
   "note": "One log entry per request frame is proved; that it is one line is proved for header values without line breaks, and refuted otherwise: a path with an octet 10 writes two lines. Text of IPv6 addresses is inet_ntop's (assumed without blanks and line breaks)."
  },
  {
   "property": "C63",
   "status": "partial",
   "theorems": [
    "C63_recorded_partial",
    "C63_recorded_refuted"
   ],
   "note": "Proved for requests with one :method and one :path; refuted for repeated ones: the handler is chosen by the first, the log shows the last."
  },
  {
   "property": "C64",
   "status": "proved",
   "theorems": [
    "C64_statistics",
    "C64_program"
   ],
   "note": "Counters are 64-bit and wrap (the sum is stated below 2^64); the statistics middleware is the first, as in the program."
  },
  {
   "property": "C65",
   "status": "proved",
   "theorems": [
    "C65_duration"
   ],
   "note": ""
  },
  {
   "property": "C66",
   "status": "proved",
   "theorems": [
    "C66_validate",
    "C66_arguments"
   ],
   "note": ""
  },
  {
   "property": "C67",
   "status": "proved",
   "theorems": [
    "C67_page",
    "C67_page_missing"
   ],
   "note": "Stated for the program's registrations; the page is looked up when the response is made."
  },
  {
   "property": "C68",
   "status": "proved",
   "theorems": [
    "C68_alpn"
   ],
   "note": ""
  },
  {
   "property": "C69",
   "status": "partial",
   "theorems": [
    "C69_tcp_read",
    "C69_tls_read",
    "C69_scripts",
    "C69_tcp_write",
    "C69_tls_write_partial",
    "C69_tls_write_refuted",
    "C69_tls_handshake"
   ],
   "note": "False for SSL_write returning 0 with a would-block error, which is taken for a short write (refuted); proved for all other results of both transports, under the contracts of the calls."
  },
  {
   "property": "C70",
   "status": "proved",
   "theorems": [
    "C70_to_system",
    "C70_from_system",
    "C70_round_trip"
   ],
   "note": ""
  },
  {
   "property": "C71",
   "status": "proved",
   "theorems": [
    "C71_retried"
   ],
   "note": ""
  },
  {
   "property": "C72",
   "status": "partial",
   "theorems": [
    "C72_undefined_refuted",
    "C72_only_malformed_partial",
    "C72_every_malformed_refuted"
   ],
   "note": "False of the code: three kinds of malformed frames are read out of bounds (refuted, with witnesses, and for every such frame at any point of any connection: C72_every_malformed_refuted). Proved: no other input does so, on any connection history."
  },
  {
   "property": "C73",
   "status": "partial",
   "theorems": [
    "C73_frame_size_refuted",
    "C73_other_frames_partial"
   ],
   "note": "False of the code: response HEADERS are not split (refuted). Proved: all other frames the server sends hold at most 16256 octets."
  },
  {
   "property": "C74",
   "status": "proved",
   "theorems": [
    "C74_back_pressure"
   ],
   "note": ""
  },
  {
   "property": "C75",
   "status": "partial",
   "theorems": [
    "C75_head_partial",
    "C75_head_refuted"
   ],
   "note": "Proved without a custom 404 page; refuted with one: a HEAD request for something missing gets the page as body."
  },
  {
   "property": "C76",
   "status": "proved",
   "theorems": [
    "C76_sockets"
   ],
   "note": ""
  },
  {
   "property": "C77",
   "status": "proved",
   "theorems": [
    "C77_served",
    "C77_arrival",
    "C77_no_arrival"
   ],
   "note": ""
  },
  {
   "property": "C78",
   "status": "proved",
   "theorems": [
    "C78_one_sequence"
   ],
   "note": ""
  },
  {
   "property": "C79",
   "status": "proved",
   "theorems": [
    "C79_statistics"
   ],
   "note": ""
  },
  {
   "property": "C80",
   "status": "proved",
   "theorems": [
    "C80_answers",
    "C80_determined",
    "C80_files_exact",
    "C80_file"
   ],
   "note": "Exact: C80_determined shows that the description (SpecProgram.v) leaves one answer per request except for the status page, whose text depends on the statistics; C80_files_exact that the file handler answers exactly what it says. The description follows the code where a path names nothing (text from the missing component on), which is how a file outside the directory can be reached (C57). The file system does not change during the run."
  },
  {
   "property": "C81",
   "status": "partial",
   "theorems": [
    "C81_octets_partial",
    "C81_exactly",
    "C81_decodable_refuted",
    "C81_page_partial"
   ],
   "note": "Partial: the answers are those of C80; the response fields are proved readable for clients with the default table when at most 39 different content-length values were sent on the connection. False without such a limit: after 64 downloads of different size no client can read the fields (refuted). C81_exactly: for every client table of up to 64 KiB, which responses can be read. C81_page_partial is the same for the status page as it is (StatusPage.v)."
  },
  {
   "property": "C82",
   "status": "proved",
   "theorems": [
    "C82_log"
   ],
   "note": "The text of IPv6 addresses is a parameter (inet_ntop)."
  },
  {
   "property": "C83",
   "status": "partial",
   "theorems": [
    "C83_levels_partial",
    "C83_levels_refuted"
   ],
   "note": "Proved for trace, debug and info; refuted for warn (error, critical, off likewise): the level set for the console also applies to the access logger (contract of spdlog's registry)."
  },
  {
   "property": "C84",
   "status": "partial",
   "theorems": [
    "C84_levels_partial",
    "C84_levels_refuted"
   ],
   "note": "Proved for lower-case spellings; refuted for every other accepted spelling (INFO, Info, ...): the program ends with an uncaught exception. CLI11's ignore_case leaves the value as typed (contract)."
  },
  {
   "property": "C85",
   "status": "partial",
   "theorems": [
    "C85_client_gone",
    "C85_ends",
    "C85_pipe_refuted"
   ],
   "note": "The first two sentences are proved; the third is refuted on Linux, where a write of no octets to a pipe succeeds even if nobody reads it (contract of the system). Standard streams that are sockets are not considered."
  },
  {
   "property": "C86",
   "status": "proved",
   "theorems": [
    "C86_page"
   ],
   "note": "The page is read back from the octets of the body: SpecStatus.v looks for the labels and tags. Version and instance id must not contain '<'. The uptime needs a clock that is at most 2^63 ns past the start."
  },
  {
   "property": "C87",
   "status": "partial",
   "theorems": [
    "C87_latency_partial",
    "C87_mean_refuted",
    "C87_no_overflow"
   ],
   "note": "False of the code: the divisor includes the request for the page itself (refuted: 10 ms shown as 5.00ms). Proved: apart from the divisor the number is right to half of its last digit, up to the rounding of double (relative 2^-50); the total does not overflow (C87_no_overflow)."
  },
  {
   "property": "C88",
   "status": "partial",
   "theorems": [
    "C88_own_reason_partial",
    "C88_right",
    "C88_wrong",
    "C88_own_reason_refuted"
   ],
   "note": "False of the code: the connections share the TLS library's error queue and only a handshake empties it (refuted with a run of the server in which a healthy client loses its connection and its request). Proved: it holds when nothing can be left of earlier failures (then every report is right, C88_right), and fails for every connection that would have to wait otherwise (C88_wrong). The behaviour of SSL_get_error and of the queue is a contract of OpenSSL (DESIGN.md section 2)."
  },
  {
   "property": "C89",
   "status": "partial",
   "theorems": [
    "C89_freed_once",
    "C89_moved",
    "C89_nothing_lost_partial",
    "C89_nothing_lost_refuted",
    "C89_context"
   ],
   "note": "False of the code only when SSL_set_fd fails: the constructor throws and the object is lost (refuted). Proved for all histories: freed at most once, by its only owner, while the socket it was given is still the one open under its descriptor; sockets closed once (with C54). Proved for histories in which SSL_set_fd does not fail: nothing is lost. The context: all paths."
  },
  {
   "property": "C90",
   "status": "proved",
   "theorems": [
    "C90_set_up",
    "C90_accept",
    "C90_serving",
    "C90_served",
    "C90_refines"
   ],
   "note": "Proved for every system whose answers obey the manual pages (reliable: -1 or non-negative, setsockopt 0 or -1, new descriptors are new). C90_refines ties the accept of the server model (C47-C53) to these calls."
  },
  {
   "property": "C91",
   "status": "partial",
   "theorems": [
    "C91_reads_only",
    "C91_not_continued",
    "C91_waits_partial",
    "C91_waits_refuted"
   ],
   "note": "False of the code: during the handshake the socket is watched for reading only, whatever the TLS library waits for (refuted; for all runs C91_reads_only, C91_not_continued). Proved: a handshake that waits to read goes on when the socket is readable. C91_waits_partial and C91_not_continued are for runs in which epoll_ctl does not fail."
  },
  {
   "property": "C92",
   "status": "partial",
   "theorems": [
    "C92_listens_partial",
    "C92_started_partial",
    "C92_deaf",
    "C92_listens_refuted"
   ],
   "note": "False of the code: a failed registration of the listener is only logged (refuted); from then on, for all runs, nothing is ever accepted (C92_deaf). Proved: in every run in which the registration succeeded the listener stays registered for reading."
  },
  {
   "property": "C93",
   "status": "proved",
   "theorems": [
    "C93_handshake",
    "C93_signs",
    "C93_deadline"
   ],
   "note": "Proved. The bound counts the checks the server makes: it must get to iterate (its own waiting time is 25 ms). The time of one iteration, d, is a parameter."
  },
  {
   "property": "C94",
   "status": "partial",
   "theorems": [
    "C94_no_more_requests_partial",
    "C94_kept",
    "C94_closed_refuted"
   ],
   "note": "Partly false of the code: the connection is not closed; the server waits until it can write again, with the same output, until hangup or timeout (C94_kept, C94_closed_refuted). Proved: no request is handled or logged after the failure."
  },
  {
   "property": "C95",
   "status": "partial",
   "theorems": [
    "C95_any_length_partial",
    "C95_too_long",
    "C95_any_length_refuted"
   ],
   "note": "False of the code from 2 GiB on: the size is cast to int, the library is asked for a negative length and refuses, each time (refuted; C95_too_long for all sizes up to 4 GiB). Proved below 2 GiB. That SSL_write refuses a negative length is a contract of OpenSSL."
  },
  {
   "property": "C96",
   "status": "partial",
   "theorems": [
    "C96_called",
    "C96_later_partial",
    "C96_gone_refuted",
    "C96_changed_refuted",
    "C96_moved_refuted"
   ],
   "note": "False of the code: the lambda for static files holds references to the method string and to an element of a vector (refuted in three ways). Proved: what exactly happens in every history (C96_called), and that it is right when the string and the set of static handlers are left alone, as they are in the server. Middlewares are left out."
  },
  {
   "property": "C97",
   "status": "partial",
   "theorems": [
    "C97_closed_partial",
    "C97_kept",
    "C97_still_there",
    "C97_closed_refuted"
   ],
   "note": "Partly false of the code: failures the transport classifies as \"other\" leave the connection as it is (refuted; C97_kept and C97_still_there for all connections that wait with no output left). Proved: after the end of the stream or a TLS violation the connection is gone. C97_still_there is for runs in which epoll_ctl does not fail."
  },
  {
   "property": "C98",
   "status": "partial",
   "theorems": [
    "C98_again_partial",
    "C98_left_open",
    "C98_stopped",
    "C98_orphans",
    "C98_again_refuted"
   ],
   "note": "False of the code: after stop every later start returns at once (C98_stopped), and connections left behind are neither served nor closed until they time out (C98_orphans, C98_left_open). Proved: with no connections left and without stop the next start is like a first one, so that all theorems about start apply to it."
  },
  {
   "property": "C99",
   "status": "partial",
   "theorems": [
    "C99_server_there",
    "C99_killed",
    "C99_in_time",
    "C99_each_handler",
    "C99_ends_partial",
    "C99_console_gone",
    "C99_console_refuted",
    "C99_off_partial",
    "C99_off_refuted"
   ],
   "note": "Proved but for the console: the last message is written after the handlers were removed, so that a standard output nobody reads kills the process (refuted; C99_console_gone for all runs). Signals arrive between the modelled steps; the console is that of spdlog's default logger. With --log-level off the console cannot kill the process, unless telemetry is disabled (C99_off_partial, C99_off_refuted)."
  },
  {
   "property": "C100",
   "status": "partial",
   "theorems": [
    "C100_overlooked_refuted",
    "C100_noticed_partial"
   ],
   "note": "False of the code for all frames but two kinds: C100_overlooked_refuted shows for every conversation that frames in error are handled like correct ones (HEADERS aside; SETTINGS must hold whole entries). C100_noticed_partial: SETTINGS of a wrong size and GOAWAY end it."
  },
  {
   "property": "C101",
   "status": "partial",
   "theorems": [
    "C101_never_looked_at_refuted"
   ],
   "note": "False of the code: the stream identifiers of HEADERS and DATA frames can be replaced by any others, and nothing changes but those on the frames sent back."
  },
  {
   "property": "C102",
   "status": "partial",
   "theorems": [
    "C102_asked_exactly",
    "C102_incomplete_partial",
    "C102_malformed_refuted"
   ],
   "note": "C102_asked_exactly says which requests reach the application: those with :method and :path. Only the absence of these is noticed; others that are malformed are handled (refuted)."
  },
  {
   "property": "C103",
   "status": "partial",
   "theorems": [
    "C103_no_credit_refuted",
    "C103_small_uploads_partial"
   ],
   "note": "False of the code: no WINDOW_UPDATE is ever sent, so 65535 octets is the limit for all uploads of a connection together."
  },
  {
   "property": "C104",
   "status": "proved",
   "theorems": [
    "C104_read_until_empty"
   ],
   "note": ""
  },
  {
   "property": "C105",
   "status": "partial",
   "theorems": [
    "C105_own_length_refuted",
    "C105_program_partial"
   ],
   "note": "False in general: a handler's own content-length is kept beside the server's. Proved for the shipped program."
  },
  {
   "property": "C106",
   "status": "proved",
   "theorems": [
    "C106_insert",
    "C106_decode",
    "C106_text"
   ],
   "note": "For the class on its own, with any codes; C04-C08 are about the table of RFC 7541. A code that starts another is accepted, and the longer one can then not be read (C106_case)."
  },
  {
   "property": "C107",
   "status": "partial",
   "theorems": [
    "C107_offered_refuted",
    "C107_offered_partial"
   ],
   "note": "False of the code: a client that does not offer h2 is answered with h2 instead of being refused. Proved for clients that offer it."
  },
  {
   "property": "C108",
   "status": "partial",
   "theorems": [
    "C108_connection_partial",
    "C108_lines",
    "C108_static_partial",
    "C108_forged_refuted"
   ],
   "note": "False of the code: the path of a request refused with 403 is logged as it is. Proved for connections whose application says only printable things, and for files asked for with printable paths. Messages below level info are not modelled."
  },
  {
   "property": "C109",
   "status": "proved",
   "theorems": [
    "C109_blocks",
    "C109_files",
    "C109_nothing_unreported",
    "C109_nothing_invented",
    "C109_page"
   ],
   "note": "Messages of level info and above of the connection, the decoder and static files."
  },
  {
   "property": "C110",
   "status": "partial",
   "theorems": [
    "C110_agrees_with_log",
    "C110_program_says",
    "C110_sent_refuted"
   ],
   "note": "The agreement is proved; that what is reported as sent is sent is false of the code."
  },
  {
   "property": "C111",
   "status": "partial",
   "theorems": [
    "C111_spans_partial",
    "C111_traced",
    "C111_incomplete_refuted"
   ],
   "note": "Requests that reach the application are proved; those answered 400 by the connection have a span without attributes and status."
  },
  {
   "property": "C112",
   "status": "partial",
   "theorems": [
    "C112_messages_partial",
    "C112_marks",
    "C112_unmarked",
    "C112_unhandled_refuted"
   ],
   "note": "Messages during spans and marks are proved; the report of an exception that leaves the processing of a request is not marked."
  },
  {
   "property": "C113",
   "status": "proved",
   "theorems": [
    "C113_connection",
    "C113_requests",
    "C113_amplified",
    "C113_server",
    "C113_program"
   ],
   "note": ""
  },
  {
   "property": "C114",
   "status": "partial",
   "theorems": [
    "C114_unchanged",
    "C114_defined",
    "C114_answers",
    "C114_same_place_partial",
    "C114_no_links_partial",
    "C114_fading_partial",
    "C114_contained_refuted"
   ],
   "note": "Proved: the form of answers whatever changes; containment while the path leads to the same place, without links below the root, and without '..' while no file appears. In general it is false of the code."
  },
  {
   "property": "C115",
   "status": "partial",
   "theorems": [
    "C115_counts",
    "C115_counts_elsewhere_partial",
    "C115_clients",
    "C115_first_last",
    "C115_idle",
    "C115_complaints",
    "C115_silent_hangups_refuted",
    "C115_new_client_failures",
    "C115_poll_failures",
    "C115_register_failures",
    "C115_counts_elsewhere_refuted"
   ],
   "note": "Proved with epoll; with poll hang-ups leave no line, so the totals do not add up. With epoll every hang-up is shown as a failure of epoll_ctl."
  },
  {
   "property": "C116",
   "status": "partial",
   "theorems": [
    "C116_tcp_read",
    "C116_tcp_write",
    "C116_tcp_shutdown",
    "C116_tls",
    "C116_tls_texts",
    "C116_tls_partial_write",
    "C116_own_reason_partial",
    "C116_own_reason_refuted",
    "C116_handshake_reason_partial",
    "C116_handshake_reason_refuted",
    "C116_handshake_same_message"
   ],
   "note": "False of the code in two ways: a handshake that fails because of an error of the TLS library is reported with the description of another error (usually none), and after a failed read or write a healthy connection is reported as violating the protocol (C88). Proved: every failure leaves one message of level error and nothing else does; texts of all the others; errors of the system during a handshake are described."
  },
  {
   "property": "C117",
   "status": "partial",
   "theorems": [
    "C117_no_new_privileges_partial",
    "C117_route",
    "C117_claim",
    "C117_set",
    "C117_no_new_privileges_refuted"
   ],
   "note": "False where the system refuses (only a warning) and elsewhere than on Linux. Proved: on Linux, when the system carries it out, for all runs; what the route says in all cases."
  },
  {
   "property": "C118",
   "status": "proved",
   "theorems": [
    "C118_unset",
    "C118_others",
    "C118_written",
    "C118_not_opened",
    "C118_readable"
   ],
   "note": "Writing to an open file is taken to succeed."
  },
  {
   "property": "C119",
   "status": "partial",
   "theorems": [
    "C119_reason_given",
    "C119_reason_partial",
    "C119_reason_given_paths",
    "C119_reason_refuted",
    "C119_output",
    "C119_no_server",
    "C119_off_partial",
    "C119_off_refuted",
    "C119_levels",
    "C119_console"
   ],
   "note": "False of the code in two ways: without a key path the reason given is that a file was not found; with --log-level off and telemetry disabled one line is printed. The rest is proved. A server made with the given paths only would give the true reason (C119_reason_given_paths)."
  },
  {
   "property": "C120",
   "status": "partial",
   "theorems": [
    "C120_exactly",
    "C120_well_formed_refuted",
    "C120_program_partial"
   ],
   "note": "False of the code: what handlers return is not looked at, and the server's own 400 has no :status. Proved: exactly which responses are well-formed; all of the shipped program's are, but for that 400."
  },
  {
   "property": "C121",
   "status": "proved",
   "theorems": [
    "C121_kept",
    "C121_delivered"
   ],
   "note": "A write that reports an error must have taken nothing for the last part (C32); the shipped transports report only whole writes as successful (C95)."
  },
  {
   "property": "C122",
   "status": "proved",
   "theorems": [
    "C122_answered",
    "C122_program"
   ],
   "note": ""
  },
  {
   "property": "C123",
   "status": "partial",
   "theorems": [
    "C123_reason_partial",
    "C123_found",
    "C123_bytes_refuted"
   ],
   "note": "False of the code: integers that are complete but too large or too long are said to have not enough bytes. Everything else the messages say about refused blocks is proved, in both directions. Where an index cannot be read the behaviour after the message is undefined (C14)."
  },
  {
   "property": "C124",
   "status": "proved",
   "theorems": [
    "C124_unseen",
    "C124_log",
    "C124_console",
    "C124_program",
    "C124_shipped"
   ],
   "note": "For connections during which nothing else changes the application's state. Messages at level debug do show all fields."
  },
  {
   "property": "C125",
   "status": "partial",
   "theorems": [
    "C125_above",
    "C125_requests",
    "C125_fields",
    "C125_states",
    "C125_frames",
    "C125_console",
    "C125_forged_refuted",
    "C125_tables",
    "C125_size_refuted"
   ],
   "note": "False of the code: fields with newlines make several lines, and the size stated when an entry is added is not the table's. The rest is proved. Messages of the application are parameters (they must not look like messages about states for the third part)."
  },
  {
   "property": "C126",
   "status": "partial",
   "theorems": [
    "C126_above",
    "C126_files",
    "C126_program",
    "C126_connection",
    "C126_forged_refuted"
   ],
   "note": "False of the code in one way: names with newlines make several lines (refuted). The rest is proved: exactly which messages, with true places, sizes and types. The file system does not change during a connection; texts of filesystem_error are parameters."
  },
  {
   "property": "C127",
   "status": "proved",
   "theorems": [
    "C127_above",
    "C127_tls",
    "C127_tcp",
    "C127_read_back",
    "C127_protocol"
   ],
   "note": "For calls whose results are as the TLS library and the kernel return them. The messages do not say which connection a call is for; the messages of graceful_shutdown over TLS and of the destructor are not included."
  },
  {
   "property": "C128",
   "status": "partial",
   "theorems": [
    "C128_told",
    "C128_debug",
    "C128_fields",
    "C128_read_back_partial",
    "C128_read_back_refuted"
   ],
   "note": "The last part, that equal messages mean equal fields, holds for fields whose names have no comma; otherwise it is refuted (names are not checked)."
  },
  {
   "property": "C129",
   "status": "proved",
   "theorems": [
    "C129_debug",
    "C129_account",
    "C129_octets",
    "C129_rounds",
    "C129_program"
   ],
   "note": "For applications whose own messages cannot be taken for those of the connection (the hypotheses about says; C129_program: the shipped program is such). That the transport would block on reading is said at every end of the answers it has ready; this message is not part of the account. How the messages of the transport are interleaved with these is not modelled."
  },
  {
   "property": "C130",
   "status": "proved",
   "theorems": [
    "C130_info",
    "C130_counts",
    "C130_sockets",
    "C130_closed_event",
    "C130_closed_idle",
    "C130_closed_incoming",
    "C130_closed_thrown",
    "C130_hangup",
    "C130_write",
    "C130_write_interest",
    "C130_timeout",
    "C130_last"
   ],
   "note": "Of runs that end by an exception, the theorems say which socket of a client and that the listening socket is told to be closed; the counts are about runs that do not. Messages of connections and of reads, writes, handshakes and shutdowns of transports, which come in between, are left out."
  },
  {
   "property": "C131",
   "status": "proved",
   "theorems": [
    "C131_left",
    "C131_given_back",
    "C131_connections",
    "C131_balance",
    "C131_closed",
    "C131_quiet"
   ],
   "note": "If the exception comes from a connection, that connection is still destroyed with the server; its state at that moment, which does not matter for that, is taken to be the one before the event. Listeners that cannot be made are in C90."
  },
  {
   "property": "C132",
   "status": "partial",
   "theorems": [
    "C132_in_order_refuted",
    "C132_alone",
    "C132_queue",
    "C132_dropped_refuted"
   ],
   "note": "False of the code, in every case: C132_in_order_refuted shows that no connection is ever shut down."
  },
  {
   "property": "C133",
   "status": "proved",
   "theorems": [
    "C133_calls",
    "C133_reason",
    "C133_fatal",
    "C133_told",
    "C133_balance",
    "C133_set_up"
   ],
   "note": "what() of std::system_error is taken to be the given text, a colon, a blank and the system's text for the error number. Exceptions of other parts of start (the poller) are not part of this claim."
  }
 ]
}