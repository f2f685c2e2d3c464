(** Model of lib/tcp_listener.cpp at the level of its system calls. *)
From Verif Require Import Base Poller.

(** Constants of Linux. *)
Definition AF_INET := 2.
(** tcp_listener.cpp:57. *)
Definition SOCK_STREAM := 1.
(** tcp_listener.cpp:40. *)
Definition SOL_SOCKET := 1.
(** tcp_listener.cpp:40. *)
Definition SO_REUSEADDR := 2.
(** tcp_listener.cpp:78. *)
Definition IPPROTO_TCP := 6.
(** tcp_listener.cpp:78. *)
Definition TCP_NODELAY := 1.
(** tcp_listener.cpp:34. *)
Definition O_NONBLOCK := 2048.
(** tcp_listener.cpp:48. *)
Definition INADDR_ANY := 0.
(** tcp_listener.cpp:68. *)
Definition SOMAXCONN := 4096.
(** tcp_listener.cpp:95. *)
Definition EINTR := 4.
(** tcp_listener.cpp:95. *)
Definition EAGAIN := 11.

(** The calls made.  What a pointer argument points to is given as octets (bind) or as the
    int there (setsockopt). *)
Inductive syscall :=
| SysSocket (domain type protocol : Z)
| SysGetFlags (fd : Z)
| SysSetFlags (fd flags : Z)
| SysSetOption (fd level name value : Z)
| SysBind (fd : Z) (address : list Z)
| SysListen (fd backlog : Z)
| SysAccept (fd : Z)
| SysClose (fd : Z).
(** The calls made so far with their results. *)
Definition calls_made := list (syscall * Z).

Section Listener.
  (** The system: what it answers (result and errno) may depend on all that was done.
      [little]: the byte order of the machine. *)
  Variable system : calls_made -> syscall -> Z * Z.
  Variable little : bool.

  (** Statements of the program: None is an exception. *)
  Definition prog (A : Type) : Type := calls_made -> option A * calls_made.
  (** A statement without calls. *)
  Definition ret {A} (x : A) : prog A := fun tr => (Some x, tr).
  (** An exception thrown (e.g. tcp_listener.cpp:41). *)
  Definition throw {A} : prog A := fun tr => (None, tr).
  (** Statements in sequence. *)
  Definition bind_prog {A B} (p : prog A) (f : A -> prog B) : prog B :=
    fun tr => match p tr with (Some x, tr') => f x tr' | (None, tr') => (None, tr') end.
  (** A system call (e.g. tcp_listener.cpp:57). *)
  Definition do_call (c : syscall) : prog (Z * Z) :=
    fun tr => let (r, e) := system tr c in (Some (r, e), tr ++ [(c, r)]).
  (** A local SocketFd (or the member server_fd_ of an object under construction) with
      descriptor [fd]: closed when an exception leaves its scope (socket_fd.cpp:28-30,59-65).
      Moving it makes no calls. *)
  Definition owning {A} (fd : Z) (p : prog A) : prog A :=
    fun tr => match p tr with
              | (Some x, tr') => (Some x, tr')
              | (None, tr') => (None, snd (do_call (SysClose fd) tr'))
              end.

  (** set_nonblocking_socket, tcp_listener.cpp:29-37. *)
  Definition set_nonblocking_socket (fd : Z) : prog unit :=
    bind_prog (do_call (SysGetFlags fd)) (fun x =>
    let flags := fst x in
    if flags =? -1 then throw
    else bind_prog (do_call (SysSetFlags fd (Z.lor flags O_NONBLOCK))) (fun x =>
    if fst x =? -1 then throw else ret tt)).
  (** set_reusable_addr, tcp_listener.cpp:39-43. *)
  Definition set_reusable_addr (fd : Z) : prog unit :=
    bind_prog (do_call (SysSetOption fd SOL_SOCKET SO_REUSEADDR 1)) (fun x =>
    if negb (fst x =? 0) then throw else ret tt).
  (** A uint16_t in memory; htons. *)
  Definition in_memory (v : Z) : list Z := if little then [v mod 256; v / 256] else [v / 256; v mod 256].
  (** htons on a little-endian machine, tcp_listener.cpp:49. *)
  Definition htons (v : Z) : Z := if little then v mod 256 * 256 + v / 256 else v.
  (** struct sockaddr_in of bind_socket, tcp_listener.cpp:46-49, in memory.  INADDR_ANY is 0 in any order. *)
  Definition address (port : Z) : list Z :=
    in_memory AF_INET ++ in_memory (htons port) ++ [INADDR_ANY; 0; 0; 0] ++ [0; 0; 0; 0; 0; 0; 0; 0].
  (** bind_socket, tcp_listener.cpp:45-54. *)
  Definition bind_socket (fd port : Z) : prog unit :=
    bind_prog (do_call (SysBind fd (address port))) (fun x =>
    if fst x <? 0 then throw else ret tt).
  (** TcpListener::TcpListener, tcp_listener.cpp:56-65: the descriptor of server_fd_. *)
  Definition make_listener (port : Z) : prog Z :=
    bind_prog (do_call (SysSocket AF_INET SOCK_STREAM 0)) (fun x =>
    let server_fd := fst x in
    if server_fd <? 0 then throw
    else owning server_fd
      (bind_prog (set_nonblocking_socket server_fd) (fun _ =>
       bind_prog (set_reusable_addr server_fd) (fun _ =>
       bind_prog (bind_socket server_fd port) (fun _ => ret server_fd))))).
  (** TcpListener::listen, tcp_listener.cpp:67-71. *)
  Definition listen (fd : Z) : prog unit :=
    bind_prog (do_call (SysListen fd SOMAXCONN)) (fun x => if fst x <? 0 then throw else ret tt).
  (** Http2Server::start, http2_server.cpp:121-122; the listener is a local object. *)
  Definition set_up (port : Z) : prog Z :=
    bind_prog (make_listener port) (fun fd => owning fd (bind_prog (listen fd) (fun _ => ret fd))).

  (** set_tcp_no_delay, tcp_listener.cpp:77-81. *)
  Definition set_tcp_no_delay (fd : Z) : prog unit :=
    bind_prog (do_call (SysSetOption fd IPPROTO_TCP TCP_NODELAY 1)) (fun _ => ret tt).
  (** try_accept, tcp_listener.cpp:83-100. *)
  Definition accept_call (server_fd : Z) : prog (option Z) :=
    bind_prog (do_call (SysAccept server_fd)) (fun x =>
    let (fd, errno) := x in
    if fd >=? 0 then
      owning fd
        (bind_prog (set_nonblocking_socket fd) (fun _ =>
         bind_prog (set_tcp_no_delay fd) (fun _ => ret (Some fd))))
    else if (errno =? EAGAIN) || (errno =? EINTR) then ret None
    else throw).

  (** The life of a listener in start (http2_server.cpp:120-146): set up, then asked for
      connections any number of times; the sockets it gave out ([kept]) are closed in any order. *)
  Inductive serving (port : Z) : Z -> list Z -> calls_made -> Prop :=
  | sv_set_up : forall fd tr, set_up port [] = (Some fd, tr) -> serving port fd [] tr
  | sv_nothing : forall fd kept tr tr', serving port fd kept tr -> accept_call fd tr = (Some None, tr') -> serving port fd kept tr'
  | sv_accepted : forall fd kept tr c tr', serving port fd kept tr -> accept_call fd tr = (Some (Some c), tr') ->
      serving port fd (c :: kept) tr'
  | sv_closed : forall fd kept1 c kept2 tr, serving port fd (kept1 ++ c :: kept2) tr ->
      serving port fd (kept1 ++ kept2) (snd (do_call (SysClose c) tr)).
  (** Its end: the listener is destroyed, then the connections.  [thrown]: accept threw. *)
  Definition close_all (l : list Z) (tr : calls_made) : calls_made := fold_left (fun tr c => snd (do_call (SysClose c) tr)) l tr.
  (** All of start's use of the listener, http2_server.cpp:120-146. *)
  Inductive served (port : Z) : bool -> calls_made -> Prop :=
  | sd_stopped : forall fd kept tr, serving port fd kept tr -> served port false (close_all (fd :: kept) tr)
  | sd_thrown : forall fd kept tr tr', serving port fd kept tr -> accept_call fd tr = (None, tr') ->
      served port true (close_all (fd :: kept) tr')
  | sd_not_set_up : forall tr, set_up port [] = (None, tr) -> served port true tr.
End Listener.
