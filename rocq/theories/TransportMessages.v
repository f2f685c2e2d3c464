(** Model of the messages that the transports pass to spdlog with level info or above:
    tcp_transport.cpp and tls_transport.cpp.  Messages below info are left out.  What the
    functions report meanwhile is in Transport.v and Tls.v. *)
From Verif Require Import Base Http Transport AccessLog Messages Tls.

(** ** Plain TCP; [why] is strerror(errno) *)
(** TcpTransport::read, tcp_transport.cpp:25-42. *)
Definition tcp_read_messages (r : call_result) (why : bytes) : list message :=
  match r with
  | Failed ret errno =>
    if ret <? 0 then
      if (errno =? EAGAIN) || (errno =? EWOULDBLOCK) then []
      else [Msg LErr (str "TCP read error: " ++ why)]
    else []
  | Got _ => []
  end.
(** TcpTransport::write, tcp_transport.cpp:44-62. *)
Definition tcp_write_messages (size ret errno : Z) (why : bytes) : list message :=
  if ret <? 0 then
    if (errno =? EAGAIN) || (errno =? EWOULDBLOCK) then []
    else [Msg LErr (str "TCP write error: " ++ why)]
  else if negb (ret =? size) then
    [Msg LErr (str "TCP partial write: wrote " ++ to_string ret ++ str " of " ++ to_string size ++ str " bytes")]
  else [].
(** TcpTransport::graceful_shutdown, tcp_transport.cpp:64-69; shutdown(2) returned [ret]. *)
Definition tcp_shutdown_messages (ret : Z) (why : bytes) : list message :=
  if ret =? -1 then [Msg LErr (str "shutdown failed: " ++ why)] else [].

(** ** TLS *)
Section Tls.
  (** ERR_error_string_n. *)
  Variable describe : err -> bytes.

  (** The default case of the switch, tls_transport.cpp:63-68. *)
  Definition failed_messages (ssl_error : Z) (q : queue) : list message :=
    [Msg LErr (str "TLS handshake failed: (" ++ to_string ssl_error ++ str ") " ++ describe (fst (ERR_get_error q)))].
  (** TlsTransport::handshake, tls_transport.cpp:40-70.  After an error of the library the
      default case takes the next error of the queue. *)
  Definition handshake_messages (o : outcome) : list message :=
    let q := raise (raised o) [] in
    match o with
    | TlsDone => []
    | _ =>
      let ssl_error := SSL_get_error q o in
      if (ssl_error =? SSL_ERROR_ZERO_RETURN) || (ssl_error =? SSL_ERROR_WANT_READ) || (ssl_error =? SSL_ERROR_WANT_WRITE) then []
      else if ssl_error =? SSL_ERROR_SSL then
        let (e, q) := ERR_get_error q in
        if err_reason e =? SSL_R_UNEXPECTED_EOF_WHILE_READING then [Msg LInfo (str "client disconnected during handshake (EOF)")]
        else failed_messages ssl_error q
      else failed_messages ssl_error q
    end.
  (** TlsTransport::read, tls_transport.cpp:94-118, after SSL_read returned [ret] (0 or less). *)
  Definition tls_read_messages (ret ssl_error : Z) : list message :=
    if ret <=? 0 then
      if ssl_error =? SSL_ERROR_WANT_READ then []
      else if ssl_error =? SSL_ERROR_WANT_WRITE then []
      else if ssl_error =? SSL_ERROR_ZERO_RETURN then []
      else if ssl_error =? SSL_ERROR_SSL then [Msg LErr (str "TLS protocol error (SSL_ERROR_SSL)")]
      else [Msg LErr (str "TLS read error (SSL_ERROR_*): " ++ to_string ssl_error)]
    else [].
  (** TlsTransport::read, tls_transport.cpp:94-118. *)
  Definition read_messages (clears : bool) (o : outcome) (data : bytes) (ret : Z) (q : queue) : list message :=
    let q := raise (raised o) (if clears then [] else q) in
    match o with
    | TlsDone => tls_read_messages (lenZ data) 0
    | _ => tls_read_messages ret (SSL_get_error q o)
    end.
  (** TlsTransport::write, tls_transport.cpp:120-147. *)
  Definition tls_write_messages (size ret ssl_error : Z) : list message :=
    if ret <? 0 then
      if ssl_error =? SSL_ERROR_WANT_READ then []
      else if ssl_error =? SSL_ERROR_WANT_WRITE then []
      else if ssl_error =? SSL_ERROR_ZERO_RETURN then []
      else if ssl_error =? SSL_ERROR_SSL then [Msg LErr (str "TLS protocol error (SSL_ERROR_SSL)")]
      else [Msg LErr (str "TLS protocol error (SSL_ERROR=" ++ to_string ssl_error ++ str ")")]
    else if negb (ret =? to_int size) then
      [Msg LErr (str "SSL partial write: wrote " ++ to_string ret ++ str " of " ++ to_string size ++ str " bytes")]
    else [].
  (** TlsTransport::write, tls_transport.cpp:120-147. *)
  Definition write_messages (clears : bool) (o : outcome) (size taken ret : Z) (q : queue) : list message :=
    let q := raise (raised o) (if clears then [] else q) in
    match o with
    | TlsDone => tls_write_messages size taken 0
    | _ => tls_write_messages size ret (SSL_get_error q o)
    end.
  (** Any of the three, tls_transport.cpp:40-70, 94-147. *)
  Definition call_messages (c : tls_call) (q : queue) : list message :=
    match c with
    | CallHandshake o => handshake_messages o
    | CallRead clears o data ret => read_messages clears o data ret q
    | CallWrite clears o size taken ret => write_messages clears o size taken ret q
    end.
  (** The messages of calls made one after the other, see Tls.calls. *)
  Fixpoint calls_messages (l : list (nat * tls_call)) (q : queue) : list (list message) :=
    match l with
    | [] => []
    | (_, c) :: l' => call_messages c q :: calls_messages l' (snd (call c q))
    end.
End Tls.
