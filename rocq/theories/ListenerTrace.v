(** Model of lib/tcp_listener.cpp with its messages and the texts of its exceptions.  The calls
    are those of Listener.v (C133_calls). *)
From Verif Require Import Base AccessLog Messages HpackTrace ServerTrace Listener.

Section ListenerTrace.
  (** The system, as in Listener.v, and its text for an error number: std::strerror, and the
      message of std::system_category. *)
  Variable system : calls_made -> syscall -> Z * Z.
  Variable little : bool.
  Variable reason : Z -> bytes.

  (** Statements of the program, with the messages they write; [inr t]: an exception whose
      what() is [t]. *)
  Definition saying (A : Type) : Type := calls_made -> (A + bytes) * calls_made * list message.
  (** A statement without calls. *)
  Definition sret {A} (x : A) : saying A := fun tr => (inl x, tr, []).
  (** throw std::system_error(errno, std::system_category(), what), e.g. tcp_listener.cpp:32. *)
  Definition sthrow {A} (what : bytes) (errno : Z) : saying A := fun tr => (inr (what ++ str ": " ++ reason errno), tr, []).
  (** Statements in sequence. *)
  Definition sbind {A B} (p : saying A) (f : A -> saying B) : saying B :=
    fun tr => match p tr with
              | (inl x, tr', ms) => let '(r, tr'', ms') := f x tr' in (r, tr'', ms ++ ms')
              | (inr t, tr', ms) => (inr t, tr', ms)
              end.
  (** A system call (e.g. tcp_listener.cpp:57). *)
  Definition scall (c : syscall) : saying (Z * Z) :=
    fun tr => let (r, e) := system tr c in (inl (r, e), tr ++ [(c, r)], []).
  (** A message. *)
  Definition slog (m : message) : saying unit := fun tr => (inl tt, tr, [m]).
  (** ~SocketFd and SocketFd::close, socket_fd.cpp:28-30,59-65. *)
  Definition sclose (fd : Z) (tr : calls_made) : calls_made * list message :=
    (tr ++ [(SysClose fd, fst (system tr (SysClose fd)))], closing_trace fd).
  (** A local SocketFd, as in Listener.v (socket_fd.cpp:28-30,59-65). *)
  Definition sowning {A} (fd : Z) (p : saying A) : saying A :=
    fun tr => match p tr with
              | (inl x, tr', ms) => (inl x, tr', ms)
              | (inr t, tr', ms) => let (tr'', ms') := sclose fd tr' in (inr t, tr'', ms ++ ms')
              end.

  (** set_nonblocking_socket, tcp_listener.cpp:29-37. *)
  Definition said_nonblocking (fd : Z) : saying unit :=
    sbind (scall (SysGetFlags fd)) (fun x =>
    let (flags, errno) := x in
    if flags =? -1 then sthrow (str "fcntl F_GETFL") errno
    else sbind (scall (SysSetFlags fd (Z.lor flags O_NONBLOCK))) (fun x =>
    let (ret, errno) := x in
    if ret =? -1 then sthrow (str "fcntl F_SETFL") errno else sret tt)).
  (** set_reusable_addr, tcp_listener.cpp:39-43. *)
  Definition said_reusable (fd : Z) : saying unit :=
    sbind (scall (SysSetOption fd SOL_SOCKET SO_REUSEADDR 1)) (fun x =>
    let (ret, errno) := x in
    if negb (ret =? 0) then sthrow (str "setsockopt SO_REUSEADDR") errno else sret tt).
  (** bind_socket, tcp_listener.cpp:45-54. *)
  Definition said_bind (fd port : Z) : saying unit :=
    sbind (scall (SysBind fd (address little port))) (fun x =>
    let (ret, errno) := x in
    if ret <? 0 then sthrow (str "bind") errno else sret tt).
  (** TcpListener::TcpListener, tcp_listener.cpp:56-65. *)
  Definition said_make (port : Z) : saying Z :=
    sbind (scall (SysSocket AF_INET SOCK_STREAM 0)) (fun x =>
    let (server_fd, errno) := x in
    if server_fd <? 0 then sthrow (str "socket") errno
    else sowning server_fd
      (sbind (said_nonblocking server_fd) (fun _ =>
       sbind (said_reusable server_fd) (fun _ =>
       sbind (said_bind server_fd port) (fun _ => sret server_fd))))).
  (** TcpListener::listen, tcp_listener.cpp:67-71. *)
  Definition said_listen (fd : Z) : saying unit :=
    sbind (scall (SysListen fd SOMAXCONN)) (fun x =>
    let (ret, errno) := x in
    if ret <? 0 then sthrow (str "listen") errno else sret tt).
  (** Http2Server::start, http2_server.cpp:121-122; the listener is a local object. *)
  Definition said_set_up (port : Z) : saying Z :=
    sbind (said_make port) (fun fd => sowning fd (sbind (said_listen fd) (fun _ => sret fd))).
  (** set_tcp_no_delay, tcp_listener.cpp:77-81. *)
  Definition said_no_delay (fd : Z) : saying unit :=
    sbind (scall (SysSetOption fd IPPROTO_TCP TCP_NODELAY 1)) (fun x =>
    let (ret, errno) := x in
    if ret <? 0 then slog (warn (str "failed to set TCP_NODELAY on client fd: " ++ reason errno)) else sret tt).
  (** try_accept, tcp_listener.cpp:83-100. *)
  Definition said_accept (server_fd : Z) : saying (option Z) :=
    sbind (scall (SysAccept server_fd)) (fun x =>
    let (fd, errno) := x in
    if fd >=? 0 then
      sowning fd
        (sbind (said_nonblocking fd) (fun _ =>
         sbind (said_no_delay fd) (fun _ => sret (Some fd))))
    else if (errno =? EAGAIN) || (errno =? EINTR) then sret None
    else sthrow (str "accept") errno).

  (** The life of a listener in start, http2_server.cpp:120-146, as in Listener.v: the sockets it
      gave out are closed in any order. *)
  Inductive said_serving (port : Z) : Z -> list Z -> calls_made -> list message -> Prop :=
  | ss_set_up : forall fd tr ms, said_set_up port [] = (inl fd, tr, ms) -> said_serving port fd [] tr ms
  | ss_nothing : forall fd kept tr ms tr' ms', said_serving port fd kept tr ms -> said_accept fd tr = (inl None, tr', ms') ->
      said_serving port fd kept tr' (ms ++ ms')
  | ss_accepted : forall fd kept tr ms c tr' ms', said_serving port fd kept tr ms -> said_accept fd tr = (inl (Some c), tr', ms') ->
      said_serving port fd (c :: kept) tr' (ms ++ ms')
  | ss_closed : forall fd kept1 c kept2 tr ms, said_serving port fd (kept1 ++ c :: kept2) tr ms ->
      said_serving port fd (kept1 ++ kept2) (fst (sclose c tr)) (ms ++ snd (sclose c tr)).
  (** Sockets closed one after the other, socket_fd.cpp:59-65. *)
  Fixpoint said_close_all (l : list Z) (tr : calls_made) : calls_made * list message :=
    match l with
    | [] => (tr, [])
    | c :: l' =>
      let (tr1, ms1) := sclose c tr in
      let (tr2, ms2) := said_close_all l' tr1 in (tr2, ms1 ++ ms2)
    end.
  (** All of start's use of the listener, http2_server.cpp:120-146, and the text of the exception
      that ends it, if one does. *)
  Inductive said_served (port : Z) : option bytes -> calls_made -> list message -> Prop :=
  | st_stopped : forall fd kept tr ms, said_serving port fd kept tr ms ->
      said_served port None (fst (said_close_all (fd :: kept) tr)) (ms ++ snd (said_close_all (fd :: kept) tr))
  | st_thrown : forall fd kept tr ms t tr' ms', said_serving port fd kept tr ms -> said_accept fd tr = (inr t, tr', ms') ->
      said_served port (Some t) (fst (said_close_all (fd :: kept) tr')) (ms ++ ms' ++ snd (said_close_all (fd :: kept) tr'))
  | st_not_set_up : forall t tr ms, said_set_up port [] = (inr t, tr, ms) -> said_served port (Some t) tr ms.
End ListenerTrace.
