(** Model of all messages of the transports, whatever their level: those of
    TransportMessages.v and, between them, those with level debug or trace.  What the functions
    report meanwhile is in Transport.v, Tls.v and Alpn.v. *)
From Verif Require Import Base Http Transport AccessLog Messages Tls TransportMessages Alpn.

(** ** Plain TCP; [why] is strerror(errno) *)
(** TcpTransport::read, tcp_transport.cpp:25-42. *)
Definition tcp_read_trace (r : call_result) (why : bytes) : list message :=
  Msg LTrace (str "reading from TCP socket") ::
  let bytes_read := returned r in
  let errno := match r with Failed _ e => e | Got _ => 0 end in
  if bytes_read <? 0 then
    if (errno =? EAGAIN) || (errno =? EWOULDBLOCK) then [Msg LTrace (str "TCP want read")]
    else [Msg LErr (str "TCP read error: " ++ why)]
  else if bytes_read =? 0 then [Msg LDebug (str "TCP connection closed")]
  else [Msg LTrace (str "successfully read " ++ to_string bytes_read ++ str " bytes from TCP socket")].
(** TcpTransport::write, tcp_transport.cpp:44-62. *)
Definition tcp_write_trace (size ret errno : Z) (why : bytes) : list message :=
  if ret <? 0 then
    if (errno =? EAGAIN) || (errno =? EWOULDBLOCK) then [Msg LTrace (str "TCP want write")]
    else [Msg LErr (str "TCP write error: " ++ why)]
  else if negb (ret =? size) then
    [Msg LErr (str "TCP partial write: wrote " ++ to_string ret ++ str " of " ++ to_string size ++ str " bytes")]
  else [Msg LTrace (str "successfully wrote " ++ to_string ret ++ str " bytes to TCP socket")].
(** TcpTransport::graceful_shutdown, tcp_transport.cpp:64-69; shutdown(2) returned [ret]. *)
Definition tcp_shutdown_trace (ret : Z) (why : bytes) : list message :=
  Msg LDebug (str "shutting down TCP (SHUT_WR)") :: if ret =? -1 then [Msg LErr (str "shutdown failed: " ++ why)] else [].

(** ** TLS *)
Section Tls.
  (** ERR_error_string_n. *)
  Variable describe : err -> bytes.

  (** TlsTransport::handshake, tls_transport.cpp:40-70. *)
  Definition handshake_trace (o : outcome) : list message :=
    let q := raise (raised o) [] in
    match o with
    | TlsDone => []
    | _ =>
      let ssl_error := SSL_get_error q o in
      if ssl_error =? SSL_ERROR_ZERO_RETURN then [Msg LDebug (str "TLS connection closed by peer before handshake (likely health check)")]
      else if (ssl_error =? SSL_ERROR_WANT_READ) || (ssl_error =? SSL_ERROR_WANT_WRITE) then [Msg LTrace (str "TLS handshake want read/write")]
      else if ssl_error =? SSL_ERROR_SSL then
        let (e, q) := ERR_get_error q in
        if err_reason e =? SSL_R_UNEXPECTED_EOF_WHILE_READING then [Msg LInfo (str "client disconnected during handshake (EOF)")]
        else failed_messages describe ssl_error q
      else failed_messages describe ssl_error q
    end.
  (** TlsTransport::read, tls_transport.cpp:94-118, after SSL_read returned [ret]. *)
  Definition tls_read_trace (ret ssl_error : Z) : list message :=
    Msg LTrace (str "reading from SSL") ::
    if ret <=? 0 then
      if ssl_error =? SSL_ERROR_WANT_READ then [Msg LTrace (str "SSL want read")]
      else if ssl_error =? SSL_ERROR_WANT_WRITE then [Msg LTrace (str "SSL want write")]
      else if ssl_error =? SSL_ERROR_ZERO_RETURN then [Msg LDebug (str "TLS connection closed")]
      else if ssl_error =? SSL_ERROR_SSL then [Msg LErr (str "TLS protocol error (SSL_ERROR_SSL)")]
      else [Msg LErr (str "TLS read error (SSL_ERROR_*): " ++ to_string ssl_error)]
    else [Msg LTrace (str "successfully read " ++ to_string ret ++ str " bytes from SSL")].
  (** TlsTransport::read, tls_transport.cpp:94-118. *)
  Definition read_trace (clears : bool) (o : outcome) (data : bytes) (ret : Z) (q : queue) : list message :=
    let q := raise (raised o) (if clears then [] else q) in
    match o with
    | TlsDone => tls_read_trace (lenZ data) 0
    | _ => tls_read_trace ret (SSL_get_error q o)
    end.
  (** TlsTransport::write, tls_transport.cpp:120-147. *)
  Definition tls_write_trace (size ret ssl_error : Z) : list message :=
    if ret <? 0 then
      if ssl_error =? SSL_ERROR_WANT_READ then [Msg LTrace (str "SSL want read")]
      else if ssl_error =? SSL_ERROR_WANT_WRITE then [Msg LTrace (str "SSL want write")]
      else if ssl_error =? SSL_ERROR_ZERO_RETURN then [Msg LDebug (str "TLS connection closed")]
      else if ssl_error =? SSL_ERROR_SSL then [Msg LErr (str "TLS protocol error (SSL_ERROR_SSL)")]
      else [Msg LErr (str "TLS protocol error (SSL_ERROR=" ++ to_string ssl_error ++ str ")")]
    else if negb (ret =? to_int size) then
      [Msg LErr (str "SSL partial write: wrote " ++ to_string ret ++ str " of " ++ to_string size ++ str " bytes")]
    else [Msg LTrace (str "successfully wrote " ++ to_string ret ++ str " bytes to SSL")].
  (** TlsTransport::write, tls_transport.cpp:120-147. *)
  Definition write_trace (clears : bool) (o : outcome) (size taken ret : Z) (q : queue) : list message :=
    let q := raise (raised o) (if clears then [] else q) in
    match o with
    | TlsDone => tls_write_trace size taken 0
    | _ => tls_write_trace size ret (SSL_get_error q o)
    end.
  (** Any of the three, tls_transport.cpp:40-70, 94-147. *)
  Definition call_trace (c : tls_call) (q : queue) : list message :=
    match c with
    | CallHandshake o => handshake_trace o
    | CallRead clears o data ret => read_trace clears o data ret q
    | CallWrite clears o size taken ret => write_trace clears o size taken ret q
    end.
  (** The messages of calls made one after the other, see Tls.calls; each with those of
      alpn_callback (below), which SSL_accept calls when it has read the client's hello. *)
  Fixpoint calls_trace (l : list (nat * (list message * tls_call))) (q : queue) : list (list message) :=
    match l with
    | [] => []
    | (_, (hello, c)) :: l' => (hello ++ call_trace c q) :: calls_trace l' (snd (call c q))
    end.
End Tls.
(** TlsContext::alpn_callback, tls_context.cpp:67-85. *)
Definition alpn_trace (client : bytes) : out (list message) :=
  let! (r, p, n, negotiated) := alpn_callback client in
  Ret [Msg LDebug ((if negotiated then str "ALPN negotiated: " else str "ALPN negotiation failed, using default: ") ++ name_at p n client)].

(** ** A thread that serves plain TCP *)
Inductive tcp_call := TcpRead (r : call_result) (why : bytes) | TcpWrite (size ret errno : Z) (why : bytes).
(** What a call of the transport reports, tcp_transport.cpp:25-73. *)
Definition tcp_report (c : tcp_call) : tls_report :=
  match c with TcpRead r _ => RepRead (tcp_read r) | TcpWrite size ret errno _ => RepWrite (tcp_write size ret errno) end.
(** The messages of a call, tcp_transport.cpp:25-73. *)
Definition tcp_trace (c : tcp_call) : list message :=
  match c with TcpRead r why => tcp_read_trace r why | TcpWrite size ret errno why => tcp_write_trace size ret errno why end.
