(** Model of lib/transports/tcp_transport.cpp and tls_transport.cpp: how results of system
    calls and of the TLS library are reported. *)
From Verif Require Import Base Http.

(** <errno.h>; tcp_transport.cpp:29,47. *)
Definition EAGAIN := 11.
(** <errno.h>; tcp_transport.cpp:29,47. *)
Definition EWOULDBLOCK := 11.

(** What read(2) and SSL_read do with a buffer of [size] octets: [Got o]: return lenZ o
    and put [o] into the buffer; [Failed ret err]: return [ret] (-1, or 0 or less for
    SSL_read), errno or SSL_get_error being [err]. *)
Inductive call_result := Got (o : bytes) | Failed (ret err : Z).
(** The value returned, as tcp_transport.cpp:25-42 and tls_transport.cpp:94-118 see it. *)
Definition returned (r : call_result) : Z := match r with Got o => lenZ o | Failed ret _ => ret end.

(** TcpTransport::read, tcp_transport.cpp:25-42: the octets are in the caller's buffer. *)
Definition tcp_read (r : call_result) : rd_result :=
  let bytes_read := returned r in
  let errno := match r with Failed _ e => e | Got _ => 0 end in
  if bytes_read <? 0 then
    if (errno =? EAGAIN) || (errno =? EWOULDBLOCK) then RdErr WantReadOrWrite
    else RdErr OtherError
  else if bytes_read =? 0 then RdErr ConnectionClosed
  else RdData (match r with Got o => o | Failed _ _ => [] end).
(** TcpTransport::write, tcp_transport.cpp:44-62, for a buffer of [size] octets; write(2)
    returned [ret].  The reported result; what the peer gets is [ret] octets. *)
Definition tcp_write (size ret errno : Z) : wr_result :=
  if ret <? 0 then
    if (errno =? EAGAIN) || (errno =? EWOULDBLOCK) then WrErr WantReadOrWrite
    else WrErr WriteError
  else if negb (ret =? size) then WrPartial ret
  else WrOk ret.
(** TcpTransport::handshake, tcp_transport.cpp:71-73. *)
Definition tcp_handshake : hs_result := HsOk.

(** openssl/ssl.h *)
Definition SSL_ERROR_SSL := 1.
(** openssl/ssl.h; tls_transport.cpp:50,99,124. *)
Definition SSL_ERROR_WANT_READ := 2.
(** openssl/ssl.h; tls_transport.cpp:51,102,127. *)
Definition SSL_ERROR_WANT_WRITE := 3.
(** openssl/ssl.h; the default cases, tls_transport.cpp:63,111,136. *)
Definition SSL_ERROR_SYSCALL := 5.
(** openssl/ssl.h; tls_transport.cpp:47,105,130. *)
Definition SSL_ERROR_ZERO_RETURN := 6.
(** TlsTransport::handshake, tls_transport.cpp:40-70.  [eof]: the reason on the error
    queue is SSL_R_UNEXPECTED_EOF_WHILE_READING. *)
Definition tls_handshake (result ssl_error : Z) (eof : bool) : hs_result :=
  if result =? 1 then HsOk
  else if ssl_error =? SSL_ERROR_ZERO_RETURN then HsErr ConnectionClosed
  else if (ssl_error =? SSL_ERROR_WANT_READ) || (ssl_error =? SSL_ERROR_WANT_WRITE) then HsErr WantReadOrWrite
  else if (ssl_error =? SSL_ERROR_SSL) && eof then HsErr ConnectionClosed
  else HsErr TransportProtocolError.
(** TlsTransport::read, tls_transport.cpp:94-118. *)
Definition tls_read (r : call_result) : rd_result :=
  let bytes_read := returned r in
  let ssl_error := match r with Failed _ e => e | Got _ => 0 end in
  if bytes_read <=? 0 then
    if ssl_error =? SSL_ERROR_WANT_READ then RdErr WantReadOrWrite
    else if ssl_error =? SSL_ERROR_WANT_WRITE then RdErr WantReadOrWrite
    else if ssl_error =? SSL_ERROR_ZERO_RETURN then RdErr ConnectionClosed
    else if ssl_error =? SSL_ERROR_SSL then RdErr TransportProtocolError
    else RdErr OtherError
  else RdData (match r with Got o => o | Failed _ _ => [] end).
(** static_cast<int>: 32 bits, two's complement. *)
Definition to_int (n : Z) : Z := (n + 2147483648) mod 4294967296 - 2147483648.
(** TlsTransport::write, tls_transport.cpp:120-147; SSL_write, asked to write
    [to_int size] octets, returned [ret]. *)
Definition tls_write (size ret ssl_error : Z) : wr_result :=
  if ret <? 0 then
    if ssl_error =? SSL_ERROR_WANT_READ then WrErr WantReadOrWrite
    else if ssl_error =? SSL_ERROR_WANT_WRITE then WrErr WantReadOrWrite
    else if ssl_error =? SSL_ERROR_ZERO_RETURN then WrErr ConnectionClosed
    else if ssl_error =? SSL_ERROR_SSL then WrErr TransportProtocolError
    else WrErr TransportProtocolError
  else if negb (ret =? to_int size) then WrPartial ret
  else WrOk ret.
