(** Vocabulary of the connection interface: requests, responses, transport results and
    the observable events of a connection. *)
From Verif Require Import Base.

(** struct HttpRequest, HttpResponse, http_response.h:9-19. *)
Record request := Request { rq_method : bytes; rq_path : bytes; rq_headers : list header }.
(** struct HttpResponse, http_response.h:9-13. *)
Record response := Response { rs_status : Z; rs_headers : list header; rs_body : bytes }.

(** What the application does with a request: Router::get_handler followed by the
    handler (http2_conn.cpp:457-466).
    - [Answers r]: the handler returns [r];
    - [Fails]: the handler throws a [std::exception];
    - [Escapes]: get_handler throws one (it runs user middleware outside the try block).
    Exceptions of other types are not modelled. *)
Inductive app_answer := Answers (r : response) | Fails | Escapes.

(** enum class TransportError, transport.h:9-15. *)
Inductive transport_error := WantReadOrWrite | WriteError | ConnectionClosed | TransportProtocolError | OtherError.

(** Results of Transport::handshake, read and write (transport.h:21-24).
    A read yields octets.  [WrOk n]: n octets were taken and this is reported.
    [WrErr e]: nothing was taken.  [WrPartial k]: k octets were taken but WriteError is
    reported (tcp_transport.cpp:57-60). *)
Inductive hs_result := HsOk | HsErr (e : transport_error).
(** The result of Transport::read, transport.h:21. *)
Inductive rd_result := RdData (o : bytes) | RdErr (e : transport_error).
(** The result of Transport::write, transport.h:22. *)
Inductive wr_result := WrOk (n : Z) | WrPartial (k : Z) | WrErr (e : transport_error).

(** The transport's answers during one call of Http2Connection::process, each with the
    time at which it is given (nanoseconds of steady_clock).  When a list is exhausted
    the answer is "would block". *)
Record scripts := Scripts {
  sc_hs : list (Z * hs_result); sc_rd : list (Z * rd_result); sc_wr : list (Z * wr_result) }.

(** enum class Http2ProcessResult, http2_conn.h:19-23. *)
Inductive result := WantRead | WantWrite | DiscardConnection.

(** What can be observed of a connection, in order.
    - [EvHandshakeError]: the handshake failed for good;
    - [EvQueue o]: [o] was appended to the output buffer;
    - [EvWrite t offered taken res]: the transport was offered [offered], the peer gets
      [taken], the transport reported [res] (octets written, or an error);
    - [EvRequest r a]: the application was given [r]; [a] is its response (with a thrown
      handler exception already turned into a 500), or None if [Escapes];
    - [EvLog hs status size]: AccessLog::log_request was called. *)
Inductive event :=
| EvHandshake (t : Z)
| EvHandshakeError (e : transport_error)
| EvRead (t : Z) (o : bytes)
| EvReadError (e : transport_error)
| EvQueue (o : bytes)
| EvWrite (t : Z) (offered taken : bytes) (res : expected transport_error Z)
| EvRequest (r : request) (a : option response)
| EvLog (hs : list header) (status size : Z)
| EvShutdown.
(** The events of a connection (http2_conn.cpp) in order. *)
Definition trace := list event.

(** Projections of a trace. *)
Definition received (tr : trace) : bytes :=
  flat_map (fun e => match e with EvRead _ o => o | _ => [] end) tr.
(** All octets passed to enqueue_write, http2_conn.cpp:480-482. *)
Definition queued (tr : trace) : bytes :=
  flat_map (fun e => match e with EvQueue o => o | _ => [] end) tr.
(** All octets taken by Transport::write, http2_conn.cpp:484-510. *)
Definition delivered (tr : trace) : bytes :=
  flat_map (fun e => match e with EvWrite _ _ taken _ => taken | _ => [] end) tr.
(** All calls of handlers, http2_conn.cpp:457-462. *)
Definition requests (tr : trace) : list (request * option response) :=
  flat_map (fun e => match e with EvRequest r a => [(r, a)] | _ => [] end) tr.
(** All calls of AccessLog::log_request, http2_conn.cpp:281. *)
Definition logged (tr : trace) : list (list header * Z * Z) :=
  flat_map (fun e => match e with EvLog hs st sz => [(hs, st, sz)] | _ => [] end) tr.
