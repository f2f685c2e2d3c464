(** Model of the messages of level info and above of lib/http2_server.cpp, lib/pollers/,
    lib/tcp_listener.cpp and lib/socket_fd.cpp.  Each function here gives the messages of one
    function of the code; what the code computes meanwhile is taken from Poller.v and Server.v.
    The messages of connections (Messages.v) and those of transports, which come in between, are
    left out, as is the one for a failing epoll_create1. *)
From Verif Require Import Base Huffman Http Conn Poller Server AccessLog Messages.

(** What the system says: the peers of the sockets, by number, with the text for the error of
    getpeername and the number of the address family; why TCP_NODELAY could not be set, if so;
    the texts for other errors of epoll_ctl than those about descriptors and for errors of poll. *)
Record voice := Voice {
  v_peer : nat -> peer; v_peer_error : nat -> bytes; v_family : nat -> Z; v_nodelay : nat -> option bytes;
  v_lack : bytes; v_poll : bytes }.

Section Messages.
  Variable v : voice.
  Variable linux : bool.
  Variable listener : Z.
  Variable W : Type.
  Variable app : request -> W -> W * app_answer.
  Variable cs : bool.
  Variable T : tree.

  (** strerror(errno) after an epoll_ctl that failed: EBADF, EEXIST, ENOENT or another. *)
  Definition ctl_error (op : ctl) (fd : Z) (k : kernel) : bytes :=
    if negb (mhas fd (k_open k)) then str "Bad file descriptor"
    else match op, mhas fd (k_watch k) with
         | CtlAdd, true => str "File exists"
         | CtlMod, false | CtlDel, false => str "No such file or directory"
         | _, _ => v_lack v
         end.
  (** EPollPoller::set, epoll_poller.cpp:51-63; PollPoller::set is silent. *)
  Definition set_messages (ok : bool) (fd events : Z) (s : server W) : list message :=
    if linux then
      let op := if mhas fd (p_fds (sv_poller W s)) then CtlMod else CtlAdd in
      if fst (epoll_ctl ok op fd (to_epoll_events events) (sv_kernel W s)) then []
      else [warn (str "epoll_ctl: failed (fd: " ++ to_string fd ++ str "): " ++ ctl_error op fd (sv_kernel W s))]
    else [].
  (** EPollPoller::remove, epoll_poller.cpp:65-70; PollPoller::remove is silent. *)
  Definition remove_messages (fd : Z) (s : server W) : list message :=
    if linux then
      if fst (epoll_ctl true CtlDel fd 0 (sv_kernel W s)) then []
      else [warn (str "epoll_ctl: DEL failed (fd: " ++ to_string fd ++ str "): " ++ ctl_error CtlDel fd (sv_kernel W s))]
    else [].
  (** EPollPoller::poll is silent at these levels; PollPoller::poll, poll_poller.cpp:46-58. *)
  Definition poll_messages (e : expected poll_error (list (Z * (Z * surroundings)))) : list message :=
    if linux then []
    else match e with
         | Error PollInterrupted => [warn (str "poll interrupted by signal")]
         | Error PollErrorOther => [err (str "poll failed: " ++ v_poll v)]
         | _ => []
         end.

  (** TcpListener::set_tcp_no_delay, tcp_listener.cpp:77-81, for the socket [n]. *)
  Definition accept_messages (n : nat) : list message :=
    match v_nodelay v n with
    | Some e => [warn (str "failed to set TCP_NODELAY on client fd: " ++ e)]
    | None => []
    end.
  (** SocketFd::client_ip, socket_fd.cpp:32-53, and its value_or. *)
  Definition ip_messages (n : nat) : list message :=
    match v_peer v n with
    | PeerFails => [err (str "getpeername failed: " ++ v_peer_error v n)]
    | PeerOther => [err (str "unknown ss_family: " ++ to_string (v_family v n))]
    | _ => []
    end.
  (** The value_or of http2_server.cpp:33-53. *)
  Definition ip_or (default : bytes) (n : nat) : bytes :=
    match v_peer v n with PeerFails | PeerOther => default | p => client_ip p end.

  (** establish_conn, http2_server.cpp:33-53. *)
  Definition establish_messages (a : surroundings) (s : server W) : list message :=
    match try_accept a (sv_kernel W s) with
    | Ret (Some fd, k) =>
      let n := k_objects (sv_kernel W s) in
      let conn := Entry n (ar_now a) (fresh_conn (ar_now a)) None [] in
      let s' := set_conns W (mput fd conn (sv_conns W s)) (set_kernel W k s) in
      accept_messages n ++ ip_messages n ++ [info (str "client connected (ip: " ++ ip_or (str "unknown") n ++ str ")")] ++
      if ar_transport a then
        [info (str "HTTP connection established. total = " ++ to_string (lenZ (sv_conns W s')))] ++
        set_messages (ctl_ok 0 a) fd PRead s'
      else []
    | _ => []
    end.
  (** reap_idle_connections, http2_server.cpp:55-66. *)
  Fixpoint reap_messages (clock : Z -> Z) (l : list (Z * entry)) (s : server W) : list message :=
    match l with
    | [] => []
    | (fd, e) :: l' =>
      if has_timed_out (clock fd) (e_conn e) then
        [warn (str "closing connection due to inactivity (fd: " ++ to_string fd ++ str ")")] ++ remove_messages fd s ++
        reap_messages clock l' (erase W fd (remove linux W fd s))
      else reap_messages clock l' s
    end.
  (** handle_incoming_connection, http2_server.cpp:68-78. *)
  Definition incoming_messages (a : surroundings) (s : server W) : list message :=
    if negb (lenZ (sv_conns W s) >=? MAX_CONNECTIONS) then establish_messages a s
    else
      match try_accept a (sv_kernel W s) with
      | Ret (Some fd, k) =>
        let n := k_objects (sv_kernel W s) in
        accept_messages n ++ ip_messages n ++
        [warn (str "server at capacity. rejecting new connection from " ++ ip_or (str "unknown IP") n)]
      | _ => []
      end.
  (** handle_connection_events, http2_server.cpp:80-118. *)
  Definition event_messages (fd events : Z) (a : surroundings) (s : server W) : list message :=
    match mget fd (sv_conns W s) with
    | None => []
    | Some e =>
      if has_event events PError || has_event events PHangup then remove_messages fd (erase W fd s)
      else if negb (has_event events PRead) && negb (has_event events PWrite) then []
      else
        (if has_event events PWrite then set_messages (ctl_ok 0 a) fd PRead s else []) ++
        let s := if has_event events PWrite then set linux W (ctl_ok 0 a) fd PRead s else s in
        match process W app cs T (ar_scripts a) (e_conn e) (sv_world W s) with
        | Ret (r, c, ev, w) =>
          let e := Entry (e_socket e) (e_born e) c (Some r) (e_trace e ++ ev) in
          let s := set_world W w (set_conns W (mput fd e (sv_conns W s)) s) in
          match r with
          | WantWrite => set_messages (ctl_ok 1 a) fd (Z.lor PRead PWrite) s
          | WantRead => []
          | DiscardConnection => [info (str "closing connection")] ++ remove_messages fd s
          end
        | _ => []
        end
    end.
  (** The loop over the events, http2_server.cpp:136-142. *)
  Fixpoint events_messages (events : list (Z * (Z * surroundings))) (s : server W) : list message :=
    match events with
    | [] => []
    | (fd, (poll_events, a)) :: events' =>
      (if fd =? listener then incoming_messages a s else event_messages fd poll_events a s) ++
      match (if fd =? listener then handle_incoming_connection linux W a s
             else handle_connection_events linux W app cs T fd poll_events a s) with
      | Ret s' => events_messages events' s'
      | _ => []
      end
    end.
  (** One iteration of the loop of start, http2_server.cpp:129-142. *)
  Definition iterate_messages (it : iteration) (s : server W) : list message :=
    reap_messages (it_clock it) (sv_conns W s) s ++
    let s := reap_idle_connections linux W (it_clock it) s in
    let (events, p) := poller_poll linux (it_wait it) (sv_poller W s) (sv_kernel W s) in
    poll_messages events ++
    match events with
    | Error _ => []
    | Val events => events_messages events (set_poller W (p, sv_kernel W s) s)
    end.
  (** StopReasonHelper::to_string, stop_reason.cpp:9-20. *)
  Definition reason_text (r : stop_reason) : bytes :=
    match r with
    | StopSignal => str "signal"
    | StopStdOut => str "stdout pipe broken"
    | StopStdErr => str "stderr pipe broken"
    | StopOther => str "other"
    end.
  (** The loop and what follows it, http2_server.cpp:129-145. *)
  Fixpoint loop_messages (its : list iteration) (s : server W) : list message :=
    match sv_stop W s with
    | Some r => [info (str "server shutting down (reason: " ++ reason_text r ++ str ")")]
    | None =>
      match its with
      | [] => []
      | it :: its' =>
        iterate_messages it s ++
        match iterate linux listener W app cs T it s with
        | Ret s' => loop_messages its' s'
        | _ => []
        end
      end
    end.
  (** start, http2_server.cpp:120-146. *)
  Definition start_messages (port : Z) (made ok : bool) (stopped : option stop_reason) (k0 : kernel) (w0 : W)
      (its : list iteration) : list message :=
    if negb made then []
    else
      let s := Server W [] stopped new_poller (k_new listener k0) w0 [] in
      [info (str "listening on port " ++ to_string port)] ++ set_messages ok listener PRead s ++
      loop_messages its (set linux W ok listener PRead s).
End Messages.
