(** Model of lib/transports/tls_transport.cpp on top of OpenSSL's error queue.  The queue
    belongs to the thread, so all connections of the server share it. *)
From Verif Require Import Base Http Transport.

(** ** The library (openssl/err.h, openssl/ssl.h) *)
(** An error: ERR_GET_LIB and ERR_GET_REASON. *)
Record err := Err { err_lib : Z; err_reason : Z }.
(** openssl/err.h. *)
Definition ERR_LIB_SYS := 2.
(** openssl/sslerr.h; tls_transport.cpp:57. *)
Definition SSL_R_UNEXPECTED_EOF_WHILE_READING := 294.
(** The errors raised and not yet taken, the oldest first.  There is room for 15
    (ERR_NUM_ERRORS - 1); the oldest give way. *)
Notation queue := (list err).
(** Raising errors; inside the library. *)
Definition raise (es : list err) (q : queue) : queue := skipn (length (q ++ es) - 15) (q ++ es).

(** How a call of SSL_accept, SSL_read or SSL_write goes for the connection it is made for:
    - [TlsDone]: as asked (SSL_read and SSL_write: at least one octet);
    - [TlsWants r]: not before the socket is readable ([r]) or writable;
    - [TlsNotify]: the peer has sent close_notify;
    - [TlsFails e es]: fatally; [e] and then [es] are raised;
    - [TlsBroken]: the connection is broken and nothing is raised. *)
Inductive outcome := TlsDone | TlsWants (readable : bool) | TlsNotify | TlsFails (e : err) (es : list err) | TlsBroken.
(** The errors a call raises. *)
Definition raised (o : outcome) : list err := match o with TlsFails e es => e :: es | _ => [] end.
(** SSL_get_error after a call that went like [o] and did not succeed: first of all it looks
    at the oldest error in the queue. *)
Definition SSL_get_error (q : queue) (o : outcome) : Z :=
  match q with
  | e :: _ => if err_lib e =? ERR_LIB_SYS then SSL_ERROR_SYSCALL else SSL_ERROR_SSL
  | [] =>
    match o with
    | TlsWants true => SSL_ERROR_WANT_READ
    | TlsWants false => SSL_ERROR_WANT_WRITE
    | TlsNotify => SSL_ERROR_ZERO_RETURN
    | _ => SSL_ERROR_SYSCALL
    end
  end.
(** ERR_get_error takes the oldest error away; without one it gives 0. *)
Definition ERR_get_error (q : queue) : err * queue :=
  match q with e :: q' => (e, q') | [] => (Err 0 0, []) end.

(** ** The transport *)
(** TlsTransport::handshake, tls_transport.cpp:40-70.  SSL_accept empties the queue before
    anything else. *)
Definition handshake (o : outcome) (q : queue) : hs_result * queue :=
  let q := raise (raised o) [] in
  match o with
  | TlsDone => (HsOk, q)
  | _ =>
    let ssl_error := SSL_get_error q o in
    if (ssl_error =? SSL_ERROR_ZERO_RETURN) || (ssl_error =? SSL_ERROR_WANT_READ) || (ssl_error =? SSL_ERROR_WANT_WRITE) then
      (tls_handshake (-1) ssl_error false, q)
    else if ssl_error =? SSL_ERROR_SSL then
      let (e, q) := ERR_get_error q in
      if err_reason e =? SSL_R_UNEXPECTED_EOF_WHILE_READING then (tls_handshake (-1) ssl_error true, q)
      else (tls_handshake (-1) ssl_error false, snd (ERR_get_error q))
    else (tls_handshake (-1) ssl_error false, snd (ERR_get_error q))
  end.
(** TlsTransport::read, tls_transport.cpp:94-118, when SSL_read put [data] into the buffer or returned [ret].
    SSL_read leaves the queue as it is, but for the errors it raises; when handshake messages
    come between the data ([clears]) it empties it first. *)
Definition read (clears : bool) (o : outcome) (data : bytes) (ret : Z) (q : queue) : rd_result * queue :=
  let q := raise (raised o) (if clears then [] else q) in
  match o with
  | TlsDone => (tls_read (Got data), q)
  | _ => (tls_read (Failed ret (SSL_get_error q o)), q)
  end.
(** TlsTransport::write, tls_transport.cpp:120-147, of [size] octets; SSL_write took [taken] or returned [ret]. *)
Definition write (clears : bool) (o : outcome) (size taken ret : Z) (q : queue) : wr_result * queue :=
  let q := raise (raised o) (if clears then [] else q) in
  match o with
  | TlsDone => (tls_write size taken 0, q)
  | _ => (tls_write size ret (SSL_get_error q o), q)
  end.

(** ** The thread *)
Inductive tls_call :=
| CallHandshake (o : outcome)
| CallRead (clears : bool) (o : outcome) (data : bytes) (ret : Z)
| CallWrite (clears : bool) (o : outcome) (size taken ret : Z).
(** What a call of the transport reports, tls_transport.cpp:40-147. *)
Inductive tls_report := RepHandshake (r : hs_result) | RepRead (r : rd_result) | RepWrite (r : wr_result).
(** A call of handshake, read or write, tls_transport.cpp:40-70, 94-147. *)
Definition call (c : tls_call) (q : queue) : tls_report * queue :=
  match c with
  | CallHandshake o => let (r, q) := handshake o q in (RepHandshake r, q)
  | CallRead clears o data ret => let (r, q) := read clears o data ret q in (RepRead r, q)
  | CallWrite clears o size taken ret => let (r, q) := write clears o size taken ret q in (RepWrite r, q)
  end.
(** Calls made one after the other, each for the connection with the given socket. *)
Fixpoint calls (l : list (nat * tls_call)) (q : queue) : list (nat * tls_report) * queue :=
  match l with
  | [] => ([], q)
  | (n, c) :: l' =>
    let (r, q) := call c q in
    let (rs, q) := calls l' q in ((n, r) :: rs, q)
  end.
