{
 "C07": "False of the code: zero bits, a whole octet of ones, and an encoded EOS are accepted as padding (refuted with witnesses). Proved: valid padding is accepted with the right result.",
 "C14": "False of the code: a block ending inside a multi-octet index integer reads past its end. Proved: exactly those blocks are undefined.",
 "C18": "False of the code: a field name found only in the dynamic table at index 63 or more, or a field at index 127 or more, is written with a wrong prefix. Proved: sections all of whose fields avoid those indices survive, for any history. Proved the other way round (C18_unreachable_lost): the first such field of a connection is not received as sent, whatever follows it, but for three kinds of names described there.",
 "C20": "False of the code: the encoder assumes a 64 KiB table whatever the client announced, so a default 4096-octet client loses entries. Proved: equal results while the table fits in 4096 octets; and exactly which histories a client with any smaller table reads (C20_exactly): those in which every reference is to an entry it still has, and none of the others at all; C20_one_value_exactly says the same in terms of the fields alone when at most one name has several values.",
 "C21": "False of the code on signed-char platforms: octets of 128 or more in a value index the Huffman table with a negative number. Proved: defined when all octets are below 128, and for any octets when char is unsigned.",
 "C25": "False of the code: short WINDOW_UPDATE, GOAWAY and prioritised HEADERS payloads are read out of range. Proved: exactly those are.",
 "C26": "False of the code: padding is not removed (what is decoded instead: C26_padded_exactly); with 132 octets of padding every request asks for another path (C26_other_fields_refuted). Proved: the fragment is exact without padding.",
 "C29": "Proved for response header blocks below 2^24 octets, for any client and handler. False beyond: the 24-bit length field wraps and the frames do not parse (refuted with a witness).",
 "C31": "Proved for every response a handler produces. False for the server's own 400 response to a malformed request, which carries no :status (refuted).",
 "C32": "Proved unless the transport accepts part of a write and still reports an error. False then (TCP short write): the accepted octets are sent again (refuted).",
 "C34": "Includes: on any input the call either returns or reaches the undefined behaviour of C72; it never loops or throws.",
 "C35": "False of the code: a single call answers any number of frames (refuted for every n). Proved: the work of a call is bounded by the octets it reads plus the size of the buffer.",
 "C36": "Proved except for the server's first SETTINGS frame, which stays unsent after an input of the preface alone (refuted).",
 "C37": "False of the code: a GOAWAY is queued but never written, on any connection (proved in general, with a witness).",
 "C40": "False of the code: a client that closes right after its requests gets no answer (refuted). Proved: every complete frame read by a server that waits for more has been handled.",
 "C42": "False of the code: PING frames are ignored; no PING is ever sent (proved in general, with a witness).",
 "C43": "False of the code: END_HEADERS is not looked at and CONTINUATION is ignored (refuted). Proved: a split block is handled exactly like its first part alone, on any connection; that agrees with the whole block when the other parts are empty.",
 "C44": "False of the code: what the client says about windows never makes a difference (refuted in general form, and by a witness of a window exceeded). Proved: the DATA sent are the bodies on their streams, and windows are honoured when the bodies fit the smallest initial sizes.",
 "C72": "False of the code: three kinds of malformed frames are read out of bounds (refuted, with witnesses, and for every such frame at any point of any connection: C72_every_malformed_refuted). Proved: no other input does so, on any connection history.",
 "C73": "False of the code: response HEADERS are not split (refuted). Proved: all other frames the server sends hold at most 16256 octets.",
 "C57": "False as stated (C57_contained_refuted): with a symbolic link below the root leading out, 'missing/../link/file' passes the textual check and is opened outside. Proved for requests that name something (C57_existing_partial), for requests without '..' and for roots without symbolic links below them, for any octets in the URL path (what follows a NUL is not seen by the operating system). The file system is taken not to change while one request is handled.",
 "C58": "Exact answers for every request that names something, for missing files asked for without '..', and without a root directory; every answer other than 200 is empty (C58_no_content, no restrictions); the exact answer for every path, from its text, is C80_answers. Refuted for missing paths with '..' by the C57 witness.",
 "C59": "Proved for readable non-empty files. Refuted for empty files (only HEAD gets content-length) and for files whose reading fails (HEAD 200, GET 500).",
 "C60": "Proved for every path below the prefix; refuted for the index page: the prefix itself followed by a query string is always 404.",
 "C62": "One log entry per request frame is proved; that it is one line is proved for header values without line breaks, and refuted otherwise: a path with an octet 10 writes two lines. Text of IPv6 addresses is inet_ntop's (assumed without blanks and line breaks).",
 "C63": "Proved for requests with one :method and one :path; refuted for repeated ones: the handler is chosen by the first, the log shows the last.",
 "C64": "Counters are 64-bit and wrap (the sum is stated below 2^64); the statistics middleware is the first, as in the program.",
 "C67": "Stated for the program's registrations; the page is looked up when the response is made.",
 "C75": "Proved without a custom 404 page; refuted with one: a HEAD request for something missing gets the page as body.",
 "C47": "For every moment of every run (steps defined in SpecServer.v; C47_start shows that start() is made of them).",
 "C48": "With enough resources for epoll_ctl, at every moment, also in the middle of a batch; nothing but listener and connections is ever registered, resources or not.",
 "C50": "Isolation of entries (state and output), interest and descriptors; delivery of every event of a batch to the connection it was reported for; every connection's life is a session, so all properties of connections hold for each connection of the server.",
 "C52": "With enough resources for epoll_ctl. 'Eventually' is: as soon as the connection was reported writable and processing left nothing.",
 "C53": "False of the code: any accept error other than would-block or interruption is thrown out of start() (refuted for every state of the server). Proved: without such errors and with transports that can be created the loop throws nothing and every iteration ends, except for the undefined behaviour of C72.",
 "C69": "False for SSL_write returning 0 with a would-block error, which is taken for a short write (refuted); proved for all other results of both transports, under the contracts of the calls.",
 "C80": "Exact: C80_determined shows that the description (SpecProgram.v) leaves one answer per request except for the status page, whose text depends on the statistics; C80_files_exact that the file handler answers exactly what it says. The description follows the code where a path names nothing (text from the missing component on), which is how a file outside the directory can be reached (C57). The file system does not change during the run.",
 "C81": "Partial: the answers are those of C80; the response fields are proved readable for clients with the default table when at most 39 different content-length values were sent on the connection. False without such a limit: after 64 downloads of different size no client can read the fields (refuted). C81_exactly: for every client table of up to 64 KiB, which responses can be read. C81_page_partial is the same for the status page as it is (StatusPage.v).",
 "C82": "The text of IPv6 addresses is a parameter (inet_ntop).",
 "C83": "Proved for trace, debug and info; refuted for warn (error, critical, off likewise): the level set for the console also applies to the access logger (contract of spdlog's registry).",
 "C84": "Proved for lower-case spellings; refuted for every other accepted spelling (INFO, Info, ...): the program ends with an uncaught exception. CLI11's ignore_case leaves the value as typed (contract).",
 "C85": "The first two sentences are proved; the third is refuted on Linux, where a write of no octets to a pipe succeeds even if nobody reads it (contract of the system). Standard streams that are sockets are not considered.",
 "C86": "The page is read back from the octets of the body: SpecStatus.v looks for the labels and tags. Version and instance id must not contain '<'. The uptime needs a clock that is at most 2^63 ns past the start.",
 "C87": "False of the code: the divisor includes the request for the page itself (refuted: 10 ms shown as 5.00ms). Proved: apart from the divisor the number is right to half of its last digit, up to the rounding of double (relative 2^-50); the total does not overflow (C87_no_overflow).",
 "C88": "False of the code: the connections share the TLS library's error queue and only a handshake empties it (refuted with a run of the server in which a healthy client loses its connection and its request). Proved: it holds when nothing can be left of earlier failures (then every report is right, C88_right), and fails for every connection that would have to wait otherwise (C88_wrong). The behaviour of SSL_get_error and of the queue is a contract of OpenSSL (DESIGN.md section 2).",
 "C89": "False of the code only when SSL_set_fd fails: the constructor throws and the object is lost (refuted). Proved for all histories: freed at most once, by its only owner, while the socket it was given is still the one open under its descriptor; sockets closed once (with C54). Proved for histories in which SSL_set_fd does not fail: nothing is lost. The context: all paths.",
 "C90": "Proved for every system whose answers obey the manual pages (reliable: -1 or non-negative, setsockopt 0 or -1, new descriptors are new). C90_refines ties the accept of the server model (C47-C53) to these calls.",
 "C91": "False of the code: during the handshake the socket is watched for reading only, whatever the TLS library waits for (refuted; for all runs C91_reads_only, C91_not_continued). Proved: a handshake that waits to read goes on when the socket is readable. C91_waits_partial and C91_not_continued are for runs in which epoll_ctl does not fail.",
 "C92": "False of the code: a failed registration of the listener is only logged (refuted); from then on, for all runs, nothing is ever accepted (C92_deaf). Proved: in every run in which the registration succeeded the listener stays registered for reading.",
 "C93": "Proved. The bound counts the checks the server makes: it must get to iterate (its own waiting time is 25 ms). The time of one iteration, d, is a parameter.",
 "C94": "Partly false of the code: the connection is not closed; the server waits until it can write again, with the same output, until hangup or timeout (C94_kept, C94_closed_refuted). Proved: no request is handled or logged after the failure.",
 "C95": "False of the code from 2 GiB on: the size is cast to int, the library is asked for a negative length and refuses, each time (refuted; C95_too_long for all sizes up to 4 GiB). Proved below 2 GiB. That SSL_write refuses a negative length is a contract of OpenSSL.",
 "C96": "False of the code: the lambda for static files holds references to the method string and to an element of a vector (refuted in three ways). Proved: what exactly happens in every history (C96_called), and that it is right when the string and the set of static handlers are left alone, as they are in the server. Middlewares are left out.",
 "C97": "Partly false of the code: failures the transport classifies as \"other\" leave the connection as it is (refuted; C97_kept and C97_still_there for all connections that wait with no output left). Proved: after the end of the stream or a TLS violation the connection is gone. C97_still_there is for runs in which epoll_ctl does not fail.",
 "C98": "False of the code: after stop every later start returns at once (C98_stopped), and connections left behind are neither served nor closed until they time out (C98_orphans, C98_left_open). Proved: with no connections left and without stop the next start is like a first one, so that all theorems about start apply to it.",
 "C99": "Proved but for the console: the last message is written after the handlers were removed, so that a standard output nobody reads kills the process (refuted; C99_console_gone for all runs). Signals arrive between the modelled steps; the console is that of spdlog's default logger. With --log-level off the console cannot kill the process, unless telemetry is disabled (C99_off_partial, C99_off_refuted).",
 "C100": "False of the code for all frames but two kinds: C100_overlooked_refuted shows for every conversation that frames in error are handled like correct ones (HEADERS aside; SETTINGS must hold whole entries). C100_noticed_partial: SETTINGS of a wrong size and GOAWAY end it.",
 "C101": "False of the code: the stream identifiers of HEADERS and DATA frames can be replaced by any others, and nothing changes but those on the frames sent back.",
 "C102": "C102_asked_exactly says which requests reach the application: those with :method and :path. Only the absence of these is noticed; others that are malformed are handled (refuted).",
 "C103": "False of the code: no WINDOW_UPDATE is ever sent, so 65535 octets is the limit for all uploads of a connection together.",
 "C105": "False in general: a handler's own content-length is kept beside the server's. Proved for the shipped program.",
 "C106": "For the class on its own, with any codes; C04-C08 are about the table of RFC 7541. A code that starts another is accepted, and the longer one can then not be read (C106_case).",
 "C107": "False of the code: a client that does not offer h2 is answered with h2 instead of being refused. Proved for clients that offer it.",
 "C108": "False of the code: the path of a request refused with 403 is logged as it is. Proved for connections whose application says only printable things, and for files asked for with printable paths. Messages below level info are not modelled.",
 "C109": "Messages of level info and above of the connection, the decoder and static files.",
 "C110": "The agreement is proved; that what is reported as sent is sent is false of the code.",
 "C111": "Requests that reach the application are proved; those answered 400 by the connection have a span without attributes and status.",
 "C112": "Messages during spans and marks are proved; the report of an exception that leaves the processing of a request is not marked.",
 "C114": "Proved: the form of answers whatever changes; containment while the path leads to the same place, without links below the root, and without '..' while no file appears. In general it is false of the code.",
 "C115": "Proved with epoll; with poll hang-ups leave no line, so the totals do not add up. With epoll every hang-up is shown as a failure of epoll_ctl.",
 "C116": "False of the code in two ways: a handshake that fails because of an error of the TLS library is reported with the description of another error (usually none), and after a failed read or write a healthy connection is reported as violating the protocol (C88). Proved: every failure leaves one message of level error and nothing else does; texts of all the others; errors of the system during a handshake are described.",
 "C117": "False where the system refuses (only a warning) and elsewhere than on Linux. Proved: on Linux, when the system carries it out, for all runs; what the route says in all cases.",
 "C118": "Writing to an open file is taken to succeed.",
 "C119": "False of the code in two ways: without a key path the reason given is that a file was not found; with --log-level off and telemetry disabled one line is printed. The rest is proved. A server made with the given paths only would give the true reason (C119_reason_given_paths).",
 "C120": "False of the code: what handlers return is not looked at, and the server's own 400 has no :status. Proved: exactly which responses are well-formed; all of the shipped program's are, but for that 400.",
 "C121": "A write that reports an error must have taken nothing for the last part (C32); the shipped transports report only whole writes as successful (C95).",
 "C123": "False of the code: integers that are complete but too large or too long are said to have not enough bytes. Everything else the messages say about refused blocks is proved, in both directions. Where an index cannot be read the behaviour after the message is undefined (C14).",
 "C124": "For connections during which nothing else changes the application's state. Messages at level debug do show all fields.",
 "C125": "False of the code: fields with newlines make several lines, and the size stated when an entry is added is not the table's. The rest is proved. Messages of the application are parameters (they must not look like messages about states for the third part).",
 "C126": "False of the code in one way: names with newlines make several lines (refuted). The rest is proved: exactly which messages, with true places, sizes and types. The file system does not change during a connection; texts of filesystem_error are parameters.",
 "C127": "For calls whose results are as the TLS library and the kernel return them. The messages do not say which connection a call is for; the messages of graceful_shutdown over TLS and of the destructor are not included.",
 "C128": "The last part, that equal messages mean equal fields, holds for fields whose names have no comma; otherwise it is refuted (names are not checked).",
 "C129": "For applications whose own messages cannot be taken for those of the connection (the hypotheses about says; C129_program: the shipped program is such). That the transport would block on reading is said at every end of the answers it has ready; this message is not part of the account. How the messages of the transport are interleaved with these is not modelled.",
 "C130": "Of runs that end by an exception, the theorems say which socket of a client and that the listening socket is told to be closed; the counts are about runs that do not. Messages of connections and of reads, writes, handshakes and shutdowns of transports, which come in between, are left out.",
 "C131": "If the exception comes from a connection, that connection is still destroyed with the server; its state at that moment, which does not matter for that, is taken to be the one before the event. Listeners that cannot be made are in C90.",
 "C132": "False of the code, in every case: C132_in_order_refuted shows that no connection is ever shut down.",
 "C133": "what() of std::system_error is taken to be the given text, a colon, a blank and the system's text for the error number. Exceptions of other parts of start (the poller) are not part of this claim."
}
