# ion HTTP/2 server: machine-checked model

Target: `rhargreaves/ion`, sources under `/repo` (C++23). Prover: Coq 8.16.1, standard library only.
This file is written before the proofs and is kept up to date with them.

## 1. Method

* `rocq/theories/` holds, per component, a **model** file (total, computable Gallina functions that follow the C++
  function by function, each with a comment citing file and lines), a **spec** file (small declarative definitions that
  do not mention the model), **proof** files, and **property** files (`Prop*.v`) that contain nothing but the theorem
  statements (closed with `exact lemma.`), `Print Assumptions`, and concrete examples meeting the hypotheses.
* C++ integers are `Z` with explicit `mod 2^k` wherever the C++ type can wrap. Octets are `Z` with the predicate
  `0 <= b < 256`. Containers are lists. `nat` is used only for list structure and recursion fuel.
* **Undefined behaviour is a distinct outcome** (`Undef`), as are C++ exceptions (`Throw`) and exhausted fuel (`Fuel`): type
  `out` of `Base.v`. No model function maps an out-of-range access to a default value.
* **The environment is universally quantified**: transport results (reads, writes, handshakes with time stamps), poller
  results, accept results, clocks, file systems, handlers are inputs (scripts or functions) of the model.
* Loops whose trip count depends on data run on fuel computed from the data; running out is an explicit value and a
  theorem shows it is never returned.
* Where the property as stated is **false of the code**, the theorem `..._refuted` exhibits a witness in the model and
  the strongest true variant is proved next to it (suffix `_partial`). Those are the findings in section 5.

## 2. Trusted base

* Coq's kernel (and `coqchk`), as run by the gate. `vm_compute` is used for table checks and concrete cases (part of the
  kernel's conversion); `native_compute` is not used.
* What `Print Assumptions` lists: nothing, for every theorem (section 6).
* The hand translation C++ -> Gallina in the model files. Two tables and the text of the status
  page are generated by `gen/gen_tables.py` from `/repo` (`HuffmanTable.v` from `huffman_codes.h`, `StaticTable.v` from
  `header_static_table.h`, `StatusText.v` from `app/status_page.cpp`). The Huffman table is proved to be
  the canonical code of the lengths in RFC 7541 appendix B (C04), which are retyped in `SpecHuffman.v`.
* The specification files: `SpecInt`, `SpecHuffman`, `SpecTable`, `SpecHpack`, `SpecHpackEnc`, `SpecHpackKept`, `SpecFrames`, `SpecConn`, `SpecFlow`,
  `SpecFiles` (with `FileSys`: POSIX pathname resolution), `SpecRouter`, `SpecApp`, `SpecServer`, `SpecProgram`, `SpecLog`, `SpecStatus`, `SpecTls`,
  `SpecListener`, `SpecEarly`, `SpecRules`, `SpecTree`, `SpecRouterLife`, `SpecMemory`, `SpecRace`, `SpecMessages`, `SpecSpans`,
  `SpecServerMessages`, `SpecTransportMessages`, `SpecStart`, `SpecResponses`, `SpecDelivery`, `SpecReasons`, `SpecPrivate`, `SpecDebug`, `SpecDebugFiles`, `SpecTransportTrace`, `SpecHpackTrace`, `SpecConnTrace`, `SpecServerTrace`, and the few definitions
  stated beside theorems in the `Prop*.v` files.
* Assumptions about C++ and the platform: 64-bit `size_t`, 32-bit `int`, `char` signedness is a parameter of the model
  (`cs`), memory allocation does not fail, `std::expected`, `std::span`, `std::vector`, `std::deque`, `std::map`,
  `std::string` behave as the standard says; `std::filesystem` follows libstdc++'s algorithms (`Files.v`).
* Contracts of the operating system and the TLS library, where stated as hypotheses or built into the model: `read` gives
  at most as many octets as the buffer holds; `accept` gives a descriptor not in use (other values are read as EAGAIN);
  `epoll_wait`/`poll` report registered descriptors only, each once per call; closing the only descriptor of a socket
  removes it from epoll's interest list; the file system does not change while one request is handled; `localtime_r` gives
  a broken-down time in its documented ranges; on Linux a write of no octets to a pipe succeeds.
* OpenSSL's error queue (`Tls.v`): it belongs to the thread; `SSL_get_error` looks at it first; `SSL_accept` empties it,
  `SSL_read` and `SSL_write` do not unless they come across handshake messages; a fatal failure adds to it.
* Contracts of libraries: `spdlog::set_level` applies to every registered logger, including ones registered later; CLI11's
  check with `ignore_case` leaves the value as typed.
* `double` is IEEE 754 binary64 with rounding to nearest, ties to even; streams print doubles exactly rounded (glibc).
  `StatusPage.v` computes both with integers.

## 3. What is modelled

Each model file cites file and lines per definition. "All" means every function of the source file.

| source | model | extent |
|--------|-------|--------|
| `lib/hpack/byte_reader`, `int_encoder`, `int_decoder` | `IntCodec.v` | all |
| `lib/hpack/bit_reader.h`, `bit_writer.h`, `huffman_tree`, `huffman_codes.h` | `Huffman.v`, `HuffmanTable.v` | all |
| `lib/hpack/dynamic_table` | `DynTable.v` | all |
| `lib/hpack/header_block_decoder`, `header_field.h`, `header_static_table.h` | `HpackDec.v`, `StaticTable.v` | all |
| `lib/hpack/header_block_encoder` | `HpackEnc.v` | all |
| `lib/http2_frames.h`, `http2_frame_reader` | `Frames.v` | all |
| `lib/http2_conn` | `Http.v`, `Conn.v` | all; transport, clock and application are inputs; spans are in `Spans.v` |
| messages of level info and above of `lib/http2_conn`, `lib/hpack`, `lib/http2_frame_reader`, `lib/static_file_handler`, `lib/file_reader`; console pattern of `app/main.cpp` | `Messages.v` | their text; `what()` of exceptions, time stamps and trace marks are parameters |
| messages of level info and above of `lib/http2_server`, `lib/pollers`, `lib/tcp_listener`, `lib/socket_fd` | `ServerMessages.v` | their text; the texts of `strerror` other than those for descriptors are parameters; the message for a failing `epoll_create1` is left out |
| messages of level info and above of `lib/transports/` | `TransportMessages.v` | their text; the texts of `strerror` and of `ERR_error_string_n` are parameters |
| messages of level info and above of `app/main.cpp`; exceptions of `lib/server_config`, `lib/transports/tls_context` | `StartMessages.v` | their text; `what()` of library exceptions and the build version are parameters |
| spans of `lib/http2_conn`, `app/trace_id_flag`, `configure_telemetry` of `app/main.cpp`, `app/telemetry` | `Spans.v` | names and attributes of spans, trace marks of console lines; identifiers are parameters, times and export are left out |
| `lib/file_reader`, `lib/static_file_handler` | `FileSys.v`, `Files.v` | all, with the `std::filesystem` functions used |
| `lib/router` | `Router.v`, `RouterLife.v` | all; `RouterLife.v`: what handed-out handlers refer to (without middlewares) |
| `lib/access_log`, `client_ip` of `lib/socket_fd`, logger set-up of `app/main.cpp`, `log_level_enum` of `app/args` | `AccessLog.v` | the octets appended to the log by all connections; the results of `getpeername`, `localtime_r` and the text of IPv6 addresses are parameters |
| `main` of `app/main.cpp`, `app/signal_handler` | `Main.v` | how the program ends; telemetry and console output left out (see `Spans.v`, `Console.v`) |
| `app/main.cpp`, `app/signal_handler`, messages of `app/proc_ctrl` | `Console.v` | `Main.v` with console messages (their levels), signal dispositions, the handlers' pointer, signals at any step |
| `app/server_stats`, `status_page`, `test_routes`, `args` (`to_server_config`), `main` (`run_server`), `lib/server_config`, constructors of `Http2Server` and `TlsContext` | `App.v` | routes, middlewares, counters, durations, configuration; the text of the status page is a parameter here |
| `app/status_page` | `StatusPage.v`, `StatusText.v` | the page, octet by octet; version, instance id and start time are parameters |
| `lib/pollers/` | `Poller.v` | all, with a model of descriptors and of epoll's interest list |
| `lib/transports/tcp_transport`, `tls_transport` | `Transport.v` | classification of results of read, write, handshake |
| `lib/transports/tls_transport` | `Tls.v` | handshake, read and write of all connections on one error queue |
| `lib/transports/tls_transport`, `tls_context` | `TlsLife.v` | construction, moves, destruction of transports and of the context |
| `TlsContext::alpn_callback` | `Alpn.v` | all, with OpenSSL's `SSL_select_next_proto` |
| key log of `TlsContext` | `KeyLog.v` | all; writing to an open file succeeds |
| `app/proc_ctrl`, its use in `app/main.cpp` and `app/test_routes` | `ProcCtrl.v` | all; the answers of `prctl` are parameters |
| `lib/tcp_listener` | `Listener.v` | all, as programs of system calls; the system is a parameter |
| `lib/socket_fd` | `SocketFd.v` | construction, moves, close, destruction |
| `lib/http2_server`, `TcpListener::try_accept` | `Server.v`, `ServerAgain.v` | all; `ServerAgain.v`: calling `start` again |

Proof files: `IntProofs`, `HuffmanProofs`, `DynTableProofs`, `HpackLemmas`, `HpackDecProofs`, `HpackEncProofs`, `HpackEncLost`, `HpackEncKept`, `HpackEncOnce`,
`FramesProofs`, `Conn{Lemmas,Rule,Basic,Term,Run,Spec,Main,Det,More,Undef,Last,Wit,Flow,Bad}`, `FilesProofs`, `FilesServe`, `FilesText`,
`RouterProofs`, `AppProofs`, `ServerProofs`, `ServerReach`, `SocketProofs`, `ServerHistory`, `ServerGrows`, `ReasonsProofs`, `HpackEncSize`, `ProgramExt`,
`ProgramProofs`, `LogProofs`, `StatusProofs`, `TlsProofs`, `TlsLifeProofs`, `ListenerProofs`, `ServerMore`, `RouterLifeProofs`,
`WaitProofs`, `AgainProofs`, `ConsoleProofs`, `RulesProofs`, `TreeProofs`, `Messages{Proofs,Rule,Files}`,
`Spans{Proofs,Wit}`, `MemoryProofs`, `RaceProofs`, `ServerMessagesProofs`.

`RepoTests.v` runs the program's own unit tests, and its integration tests for static files and configuration, on the model. Two of
them dereference a `std::expected` without a value (`int_decoder_prefix_0`, `decodes_ff`), which the model calls undefined; all
others agree.

Properties:

| ids | statements in | method |
|-----|---------------|--------|
| C01-C03 | `PropInt.v` | value as sum of 7-bit groups; induction on the continuation octets |
| C04-C08 | `PropHuffman.v` | the table by computation (it is finite), then induction on bits and strings |
| C09-C11 | `PropTable.v` | invariant over operation lists; longest fitting prefix |
| C12-C17 | `PropHpackDec.v` | soundness and completeness against the relation of `SpecHpack.v`; simulation for smaller tables |
| C18-C21 | `PropHpackEnc.v` | the RFC relation reads back what was encoded, for every history, under an index guard; outside of it the first field is received wrongly (`HpackEncLost.v`); the table of a client with a smaller limit is a prefix of the encoder's (`SpecHpackKept.v`, `HpackEncKept.v`); fields at hand, when one name has several values (`HpackEncOnce.v`) |
| C22-C26 | `PropFrames.v`, `PropPadding.v` | arithmetic on octets |
| C27-C46, C71-C74 | `PropConn.v` | invariants over all scripts and process calls (`ConnRule.v`); refinement to a specification of the whole conversation (`SpecConn.v`) |
| C35, C43, C44, C72 (partial forms) | `PropFlow.v` | frames that are handled alike (`SpecFlow.v`) lead to the same conversation; counting what a call does |
| C47-C54, C69, C70, C76 | `PropServer.v` | invariants of all steps of the server (`reached`), ownership of handles; every connection of the server is a `session`, so that the theorems of `PropConn.v` apply to it |
| C77, C78 | `PropServer2.v` | what becomes of each connection in an iteration; one merged history of all connections (`chronicle`) |
| C79-C81 | `PropProgram.v` | the shipped program: `chronicle` with C64; the routes of `main` against `SpecProgram.v`; `session_conversation` for the program with its surroundings fixed (`ProgramExt.v`), sizes of field blocks (`HpackEncSize.v`) |
| C82-C85 | `PropLog.v` | the entries of `chronicle` against `SpecLog.v`; the loop of C51 driven by signals |
| C86, C87 | `PropStatus.v` | the page read back from its octets; error bounds of the roundings |
| C88 | `PropTls.v` | the error queue after any sequence of calls; a run of the server that shows the reports |
| C89 | `PropTls.v` | invariant over histories of transports and handles |
| C90 | `PropListener.v` | the sockets as the system sees them (`SpecListener.v`) after any sequence of calls; refinement of `Server.v`'s accept |
| C91-C95 | `PropServer3.v` | invariants of runs and of sessions (`ServerMore.v`) against `SpecEarly.v` |
| C97, C98 | `PropServer4.v` | what a waiting connection looks like (`WaitProofs.v`); invariant of a connection the poller does not know (`AgainProofs.v`) |
| C99 | `PropConsole.v` | what any steps do whatever signals arrive, by induction on the steps |
| C100-C105 | `PropRules.v` | rules of RFC 9113 for clients (`SpecRules.v`); conversations that differ in frames handled alike, or in stream identifiers, step by step; what a call that waits has read |
| C108-C110 | `PropMessages.v` | a proof rule for sessions with their messages (`MessagesRule.v`); what they should say in `SpecMessages.v` |
| C111, C112 | `PropSpans.v` | the rule of C108-C110 for sessions with spans and messages (`SpansProofs.v`); what they should say in `SpecSpans.v` |
| C115 | `PropServerMessages.v` | what the lines of each step add to the count, composed over the loop; interest of the poller as in C48 (`ServerMessagesProofs.v`); how lines are counted in `SpecServerMessages.v` |
| C116 | `PropTransportMessages.v` | cases of the calls' results, over any sequence of calls on one error queue |
| C117 | `PropPrivileges.v` | C80 for the world that `main` makes |
| C118 | `PropKeyLog.v` | induction on the lines |
| C119 | `PropStart.v` | cases against `SpecStart.v`; the levels are those of `Console.v` |
| C120 | `PropResponses.v` | what `response_fields` adds is right, the rest is the handler's (`SpecResponses.v`); for the program, the answers of C80 |
| C121 | `PropDelivery.v` | a call with output waiting writes first; what was observed of a connection is never forgotten (`ServerGrows.v`); induction over iterations (`SpecDelivery.v`) |
| C122 | `PropAnswered.v` | C29/C40 (all complete frames handled), C80/C81 (which answers) and C36 without its condition on the writes: a write that failed leaves a connection that is never waited for again |
| C123 | `PropReasons.v` | the faults of a header block with their words (`SpecReasons.v`); both directions by induction over the representations (`ReasonsProofs.v`) |
| C124 | `PropPrivate.v` | two-run statement: field lists with the same public fields (`SpecPrivate.v`); the abstract account of a connection (`final`) is related for the two inputs step by step, determinism carries it to runs (`PrivateProofs.v`). Nothing but the connection changes the world meanwhile (`eq`) |
| C125 | `PropDebug.v` | messages with level debug (`DebugMessages.v`) follow the code as those of `Messages.v` do; dropping them gives the latter; lives as chains of state changes, messages that tell of given frames (`SpecDebug.v`); induction over calls and the loop (`DebugProofs.v`, `DebugFrames.v`) |
| C126 | `PropDebugFiles.v` | the messages at level debug about files (`FilesDebug.v`) against which file stands where (`SpecDebugFiles.v`, cases as in `SpecProgram.v`), both directions (`FilesDebugProofs.v`); on connections by `C125_requests` |
| C127 | `PropTransportTrace.v` | all messages of the transports (`TransportTrace.v`) as records of reports (`SpecTransportTrace.v`); unique reading of concatenated records, numbers included (`TransportTraceProofs.v`) |
| C128 | `PropHpackTrace.v` | all messages of the decoder of header blocks (`HpackTrace.v`) against the representations of RFC 7541 with messages (`SpecHpackTrace.v`), by induction along the block (`HpackTraceProofs.v`) |
| C129 | `PropConnTrace.v` | all messages of connections (`ConnTrace.v`) against an account of events and octets (`SpecConnTrace.v`), by induction over calls and rounds (`ConnTraceProofs.v`) |
| C130 | `PropServerTrace.v` | all messages of the server loop (`ServerTrace.v`): counts and descriptors told against those of the server and the system, by induction over iterations and events (`ServerTraceProofs.v`) |
| C131 | `PropServerEnd.v` | the state a run leaves, also by an exception, and its destruction in any order (`ServerEnd.v`); descriptors, closed sockets and messages against those made, by induction over iterations, events and the order (`ServerEndProofs.v`) |
| C132 | `PropEnding.v` | no step of a connection that is still served finds it in the state in which it would be shut down, so no observation is a shutdown (`EndingProofs.v`, on the last states of `DebugProofs.v`); lifted to servers by C50 |
| C133 | `PropListenerTrace.v` | the listener once more, with its messages and the texts of its exceptions (`ListenerTrace.v`), making the same calls; a predicate on programs closed under sequence and ownership (`ListenerTraceProofs.v`); sockets made and closed counted with C90 |
| C113 | `PropMemory.v` | invariant of sessions: output buffer against the answers given so far, entries of the decoder's table (`MemoryProofs.v`); sum over the connections of the server. Capacities of `std::vector` and what the libraries allocate are not counted |
| C55, C56 | `PropRouter.v` | induction over registrations |
| C96 | `PropRouterLife.v` | state of the references (`RouterLife.v`) after any history |
| C57-C61 | `PropFiles.v` | pathname resolution; containment by component prefix |
| C114 | `PropRace.v` | the handler with a file system of its own for every system call (`FilesRace.v`); walks in file systems that change (`RaceProofs.v`) |
| C106 | `PropTree.v` | which codes a tree holds (`SpecTree.v`), by induction on insertions and bits |
| C68, C107 | `PropAlpn.v` | induction over the names offered |
| C62-C67, C75 | `PropApp.v` | induction over histories; arithmetic |

## 4. Not modelled

* `TlsTransport::graceful_shutdown`, its messages and the errors it may leave in the
  error queue (it is never called, C132); how the messages of transports, of connections and of the
  server loop are interleaved; times, identifiers and export of OpenTelemetry spans.
* OpenSSL internals other than the error queue and the choice of a protocol (its results are inputs), certificates.
* Kernel sockets beyond descriptors, flags, options and addresses (results of calls are inputs). `SOMAXCONN` and the other
  constants in `Listener.v` are those of Linux; `sockaddr_in` is laid out as on Linux.
* Signals during a step of `Console.v` (they arrive between steps); that spdlog's console sink flushes each message and
  ignores failures, and that `std::signal` keeps handlers installed, is taken from their documentation.
* What `ServerAgain.v` starts from after an exception is a state between two events; the connection whose handling threw may
  be in another state than that.
* Option parsing by CLI11; `register_opts` relies on copy elision for the addresses it hands to CLI11, which is not checked here.
* How the instance id is drawn and the build version found (parameters of `page_text`).
* Changes to files while the server runs, except for C114 (C80, C81: the file system is that of the start). In C114 every
  system call sees one state, although the kernel may let changes happen while it follows a path; pipes that keep `open`
  waiting are not modelled.
* Memory exhaustion; data races (one thread; `stop` sets a flag and a plain member from a signal handler).
* Real time: the poller's waiting time of 25 ms appears only as "some time passes".

## 5. Findings

Each is a theorem about the model with a witness, unless marked (observation).

HPACK
1. A field name present only in the dynamic table at index 63 or more, or a field at index 127 or more, is encoded with a
   wrong prefix; the client reads a different header (`C18_new_value_for_older_name_refuted`, `C18_far_field_refuted`;
   in general `C18_unreachable_lost`).
2. On platforms with signed `char`, response header octets of 128 or more index the Huffman table with a negative number:
   undefined (`C21_high_octets_refuted`).
3. A header block ending inside a multi-octet index integer is read past its end (`C14_defined_refuted`); exactly these
   blocks are undefined (`C14_undefined_exactly`).
4. The encoder uses a 64 KiB table whatever the client announced: clients with the default 4096 octets lose
   synchronisation (`C20_default_client_refuted`; exactly when: `C20_exactly`, and for responses in which at most one name has several
   values, as in the shipped program, `C20_one_value_exactly`). Size updates are accepted anywhere in a block and up to 64 KiB.
   In the shipped program 64 downloads of files of different sizes on one connection suffice to make the response fields
   unreadable for every client (`C81_decodable_refuted`); up to 39 sizes are safe (`C81_octets_partial`);
   exactly which responses which client reads: `C81_exactly`.
5. Huffman padding is not validated: zero bits, more than seven bits, an encoded EOS (`C07_*_refuted`).

Frames
6. HEADERS with the PRIORITY flag and fewer than five octets, WINDOW_UPDATE with fewer than four and GOAWAY with fewer than
   eight are read out of bounds (`C25_readers_refuted`); from the network, the first two suffice (`C72_undefined_refuted`).
7. The PADDED flag is ignored: padding is decoded as header block (`C26_padded_refuted`; what exactly: `C26_padded_exactly`).
   With 132 octets of padding every request is taken for one with `:path: /` (`C26_other_fields_refuted`,
   `C26_other_request_refuted`).

Connections
8. The 400 response to a malformed request has no `:status` (`C31_status_refuted`).
9. GOAWAY on protocol errors is queued and never written (`C37_never_sent_refuted`).
10. After a short write on TCP the octets already taken are sent again (`C32_duplicates_refuted`).
11. A client that sends requests and closes its side gets no answer (`C40_closing_client_refuted`).
12. Header blocks are never split (`C73_frame_size_refuted`; from 2^24 octets on framing breaks, `C29_framing_refuted`);
    END_HEADERS and CONTINUATION are ignored (`C43_continuation_refuted`); stream identifiers are not checked (`C101_never_looked_at_refuted`).
13. Flow control is ignored (`C44_window_refuted`, and for all clients `C44_never_heeded_refuted`); PING is not answered (`C42_ping_refuted`).
14. The server's SETTINGS stay unsent when the client sends the preface alone (`C36_settings_refuted`).
15. One call of `process` handles any number of frames while octets keep coming (`C35_unbounded_refuted`).
16. After a write error the connection is kept, watched for writability, until hangup or timeout (`C94_closed_refuted`, and
    for all connections `C94_kept`).
38. Of the connection errors that frames other than HEADERS can commit, two are noticed (`C100_overlooked_refuted`,
    `C100_noticed_partial`).
39. Malformed requests reach the application if they have `:method` and `:path` (`C102_malformed_refuted`,
    `C102_asked_exactly`).
40. The server never sends WINDOW_UPDATE: after 65535 octets of request bodies on a connection clients can send no more
    (`C103_no_credit_refuted`).
41. A handler's own `content-length` is sent beside the server's (`C105_own_length_refuted`).
42. A client that offers other protocols only is told that h2 is chosen (`C107_offered_refuted`).
43. Clients can write lines of their own on the console: the `:path` of a request that is refused with 403 is logged as it
    is, newlines included (`C108_forged_refuted`).
44. The console says "status code sent" when a response is queued, also if it can never be sent (`C110_sent_refuted`).
45. Requests that the connection answers with 400 itself have a span without attributes and status (`C111_incomplete_refuted`).
46. An exception thrown by `get_handler` is reported on the console without the trace's identifier, and the span records no
    failure (`C112_unhandled_refuted`).
47. No limit on the size of a header list is set (`SETTINGS_MAX_HEADER_LIST_SIZE`): a frame of 16384 octets can stand for a
    request of 67 million (`C113_amplified`; `C113_requests` is the bound that holds).

Server
17. A failing `accept` (ECONNABORTED, EMFILE, ...), or a failure to set up the new socket or its transport, is thrown out of `start` and ends the server, whatever it was doing
    (`C53_accept_fails_refuted`).
18. `SSL_write` returning 0 is taken for a short write (`C69_tls_write_refuted`). The size of the output is cast to `int`:
    2 GiB and more cannot be written (`C95_any_length_refuted`).
19. A failed `epoll_ctl` on a new connection or on the listener is logged only; such a connection is never served and
    disappears by timeout (hypothesis `enough_resources` in C48, C52). If it was the listener, the server runs and never
    accepts anything (`C92_listens_refuted`, `C92_deaf`).
20. On hangup the descriptor is closed before it is removed from epoll; the removal fails harmlessly (C48 covers it), but the
    console shows a warning "epoll_ctl: DEL failed" for every client that hangs up (`C115_silent_hangups_refuted`). With poll
    nothing is shown, and the totals on the console do not add up (`C115_counts_elsewhere_refuted`).
21. The TLS library's error queue is never emptied between connections: after a failed read (for example a client that
    breaks off without close_notify) the next connection whose read would block is dropped as a protocol violation, with
    the request it has just sent, until a handshake empties the queue (`C88_own_reason_refuted`, and for all runs
    `C88_wrong`). It is also reported as one (`C116_own_reason_refuted`).
22. A TLS object is lost when `SSL_set_fd` fails: the constructor throws, so the destructor does not run
    (`C89_nothing_lost_refuted`).
34. During a TLS handshake the socket is watched for reading only: a handshake that waits until it can write is not
    continued when it can, but only when the client sends something or at the timeout (`C91_waits_refuted`).
35. A read that fails for reasons other than the end of the stream or a TLS violation is "presumed non fatal": the connection
    stays as it is, and as its socket stays readable the server does not sleep until hangup or timeout
    (`C97_closed_refuted`, and for all connections `C97_kept`). With OpenSSL before 3.0 a client that breaks off without
    close_notify causes it (`SSL_ERROR_SYSCALL`).
36. `start` cannot be called again after `stop`: it returns at once (`C98_stopped`). Called again after an exception, it does
    not serve the connections that are left, which count as connections until they time out (`C98_orphans`); they stay
    open after `start` ended (`C98_left_open`).
50. When a TLS handshake fails because of an error of the TLS library (no common version, no common cipher, a certificate
    refused, ...) the error is taken from the queue to see whether it is an end of file, and the message then describes the
    next one: usually "error:00000000:lib(0)::reason(0)", whatever the reason was (`C116_handshake_reason_refuted`,
    `C116_handshake_same_message`).

Files, routing, application
23. A symbolic link below the root that leads out can be reached as `missing/../link/...` (`C57_contained_refuted`).
24. The prefix followed by a query string is always 404 (`C60_query_refuted`); prefix `/static` also matches `/staticfoo`.
25. HEAD: `content-length` of empty files differs from GET; a file that cannot be read gives 200 to HEAD, 500 to GET
    (`C59_head_refuted`); with a custom 404 page HEAD gets a body (`C75_head_refuted`).
26. Access log: line breaks in a path forge lines (`C62_lines_refuted`); with repeated `:path` the log shows the last, the
    handler serves the first (`C63_recorded_refuted`).
27. Requests whose handler throws are counted in the total but not among the statuses (`C64_throw_case`).
28. `to_server_config` always sets `key_path` (`C66_case`): without `--tls-key-path` the program ends with "private key file
    not found" instead of "TLS private key path not set." (`C119_reason_refuted`).
29. `--log-level warn` (or error, critical, off) silences the access log (`C83_levels_refuted`).
30. `--log-level INFO` passes the option check but makes `log_level_enum` throw outside `main`'s `try`
    (`C84_levels_refuted`).
31. On Linux the SIGPIPE handler's zero-length writes to a broken pipe succeed: the program never ends because of a closed
    standard output or error (`C85_pipe_refuted`).
32. The average latency on the status page divides the durations of the completed requests by the number of requests with
    the one for the page included: after one request of 10 ms it says 5.00ms (`C87_mean_refuted`).
33. A handler obtained from the router for a static file holds references to the caller's method string and into the
    router's vector; when the string is gone or changed or a static handler added, calling it is undefined or wrong
    (`C96_gone_refuted`, `C96_changed_refuted`, `C96_moved_refuted`). The server calls handlers at once.
37. The signal handlers are removed before the last message ("exiting"): if nobody reads standard output any more, the
    program is killed by SIGPIPE instead of ending with exit code 0 (`C99_console_refuted`, `C99_console_gone`).
48. The path is checked and then opened by name: a link below the root whose target outside does not exist passes the check
    as a missing file, and is served if the target appears before it is opened (`C114_contained_refuted`).
49. A configured 404 page that does not exist or may not be opened is reported nowhere: only one that can be opened and not
    read is (`C109_page`).
51. If the system refuses to set no_new_privs the program serves nevertheless, with a warning; elsewhere than on Linux
    without one (`C117_no_new_privileges_refuted`).
52. With `--log-level off` and telemetry disabled one line is printed, before the level is set (`C119_off_refuted`).
53. The fields and the status a handler returns are sent as they are: names in upper case, `connection`, status 100 make a response
    that clients must treat as malformed (`C120_well_formed_refuted`). The shipped program has no such handler (`C120_program_partial`).
54. An index or table size in a header block that is all there but too large (from 2^32) or written with more than six octets is
    reported as having "not enough bytes" (`C123_bytes_refuted`).
55. At level debug all fields of requests, credentials among them, are written to the console as they are; a value with a newline
    puts a line of the client's choice there (`C125_console`, `C125_forged_refuted`).
56. The "current sz" of the dynamic table in the message about a new entry is the size of that entry (`dynamic_table.cpp:36`),
    too small whenever there are other entries (`C125_size_refuted`).
57. At level debug a request for a file that does not exist puts a line of the client's choice on the console, if its name has a
    newline; no traversal is needed (`C126_forged_refuted`; see 55).
58. The message that telemetry is disabled is written before the log level is set and before signals are handled: with
    `--log-level off` it is printed, and kills the process if nobody reads standard output (`C99_off_refuted`).
59. At level trace two different header blocks can give the same messages: names of fields are not checked, and the message
   `decoded header: name: …, value: …` does not tell where a name with a comma ends (C128_read_back_refuted).
60. No connection is ever shut down: `close` is called for protocol errors only, after it the connection is dropped, and the state
    in which `graceful_shutdown` would be called is never seen again. TLS clients get no close_notify, and cannot tell the end
    of a connection from an attack that cuts it off (`C132_in_order_refuted`, `C132_dropped_refuted`; compare finding 9). If it
    were called, the errors of `SSL_shutdown` would stay in the error queue as in finding 21.

## 6. Assumptions per theorem

Every theorem named in `MANIFEST.json` is followed by `Print Assumptions` in its `Prop*.v` file; the output is "Closed under
the global context" for all of them. No axioms are declared. (The gate's list of axioms in the loaded environment names
seven of `Coq.ssr.ssrunder.Under_rel`: standard-library module parameters that come with `lia`'s imports and are used by no
theorem here.)

Hypotheses that recur: `huffman_tree = Ret T` (the tree the constructor builds; `C04_tree_builds` shows it exists),
`answers_ok cs app` (responses whose headers the encoder can encode, see C18, C21), `scripts_ok` (reads give 1 to 16384
octets; `C69_scripts` derives it from the contracts of the calls), `setting listener k0` (the listener's descriptor is new).

## 7. Mutation tests

`seeded/LOG.jsonl` lists edits of definitions in a copy of the model, the claim each breaks, and the theorems that failed:
`first_failures` are the lemmas at which compilation of their files stopped; `theorems_failed` are the theorems in `Prop*.v` whose
statements or proofs use these, directly or through other lemmas (found by names, in the files a file requires).
