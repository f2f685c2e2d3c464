(** Model of the messages of every level of lib/http2_server.cpp, lib/pollers/,
    lib/tcp_listener.cpp and lib/socket_fd.cpp, and of those from the destruction of
    transports.  It extends ServerMessages.v, which is about level info and above, by the
    messages of level debug and trace.  The messages of connections (ConnTrace.v) and those of
    the reads, writes, handshakes and shutdowns of transports (TransportTrace.v), which come
    in between, are left out. *)
From Verif Require Import Base Huffman Http Conn Poller Server AccessLog Messages DebugMessages HpackTrace ServerMessages.

Section Trace.
  Variable v : voice.
  Variable linux : bool.
  Variable listener : Z.
  Variable tls : bool.
  Variable W : Type.
  Variable app : request -> W -> W * app_answer.
  Variable cs : bool.
  Variable T : tree.

  (** SocketFd::close, socket_fd.cpp:59-65. *)
  Definition closing_trace (fd : Z) : list message :=
    if fd >=? 0 then [trace (str "closing socket fd " ++ to_string fd)] else [].
  (** The destructors of a connection and of what it owns: ~TlsTransport, tls_transport.cpp:72-78
      (~TcpTransport says nothing, tcp_transport.cpp:13), then ~SocketFd, socket_fd.cpp:28-30. *)
  Definition destroy_trace (fd : Z) : list message :=
    (if tls then [debug (str "freeing OpenSSL")] else []) ++ closing_trace fd.
  (** connections_.erase, http2_server.cpp:61,88,114. *)
  Definition erase_trace (fd : Z) (s : server W) : list message :=
    match mget fd (sv_conns W s) with Some _ => destroy_trace fd | None => [] end.

  (** PollPoller::poll, poll_poller.cpp:46-58; EPollPoller::poll is silent, epoll_poller.cpp:72-100. *)
  Definition poll_trace (e : expected poll_error (list (Z * (Z * surroundings)))) : list message :=
    if linux then []
    else match e with
         | Error PollTimeout => [trace (str "poll timed out")]
         | _ => poll_messages v linux e
         end.
  (** TcpListener::try_accept, tcp_listener.cpp:83-100: the socket is closed again if it cannot
      be made non-blocking. *)
  Definition accept_trace (a : surroundings) (k : kernel) : list message :=
    match try_accept a k, ar_accept a with
    | Ret (Some _, _), _ => accept_messages v (k_objects k)
    | Throw, AcceptFd fd _ => closing_trace fd
    | _, _ => []
    end.
  (** establish_conn, http2_server.cpp:33-53.  Where no transport can be made, the socket is closed again. *)
  Definition establish_trace (a : surroundings) (s : server W) : list message :=
    accept_trace a (sv_kernel W s) ++
    match try_accept a (sv_kernel W s) with
    | Ret (Some fd, k) =>
      let n := k_objects (sv_kernel W s) in
      let conn := Entry n (ar_now a) (fresh_conn (ar_now a)) None [] in
      let s' := set_conns W (mput fd conn (sv_conns W s)) (set_kernel W k s) in
      ip_messages v n ++ [info (str "client connected (ip: " ++ ip_or v (str "unknown") n ++ str ")")] ++
      if ar_transport a then
        [info (str "HTTP connection established. total = " ++ to_string (lenZ (sv_conns W s')))] ++
        set_messages v linux W (ctl_ok 0 a) fd PRead s'
      else closing_trace fd
    | _ => []
    end.
  (** reap_idle_connections, http2_server.cpp:55-66. *)
  Fixpoint reap_trace (clock : Z -> Z) (l : list (Z * entry)) (s : server W) : list message :=
    match l with
    | [] => []
    | (fd, e) :: l' =>
      if has_timed_out (clock fd) (e_conn e) then
        [warn (str "closing connection due to inactivity (fd: " ++ to_string fd ++ str ")")] ++ remove_messages v linux W fd s ++
        erase_trace fd (remove linux W fd s) ++
        reap_trace clock l' (erase W fd (remove linux W fd s))
      else reap_trace clock l' s
    end.
  (** handle_incoming_connection, http2_server.cpp:68-78; the overflow socket is closed at the end of the block. *)
  Definition incoming_trace (a : surroundings) (s : server W) : list message :=
    if negb (lenZ (sv_conns W s) >=? MAX_CONNECTIONS) then establish_trace a s
    else
      accept_trace a (sv_kernel W s) ++
      match try_accept a (sv_kernel W s) with
      | Ret (Some fd, k) =>
        let n := k_objects (sv_kernel W s) in
        ip_messages v n ++
        [warn (str "server at capacity. rejecting new connection from " ++ ip_or v (str "unknown IP") n)] ++ closing_trace fd
      | _ => []
      end.
  (** handle_connection_events, http2_server.cpp:80-118. *)
  Definition event_trace (fd events : Z) (a : surroundings) (s : server W) : list message :=
    match mget fd (sv_conns W s) with
    | None => []
    | Some e =>
      if has_event events PError || has_event events PHangup then
        [debug (str "poll indicated connection closed")] ++ erase_trace fd s ++ remove_messages v linux W fd (erase W fd s)
      else if negb (has_event events PRead) && negb (has_event events PWrite) then []
      else
        (if has_event events PWrite then set_messages v linux W (ctl_ok 0 a) fd PRead s else []) ++
        let s := if has_event events PWrite then set linux W (ctl_ok 0 a) fd PRead s else s in
        match process W app cs T (ar_scripts a) (e_conn e) (sv_world W s) with
        | Ret (r, c, ev, w) =>
          let e := Entry (e_socket e) (e_born e) c (Some r) (e_trace e ++ ev) in
          let s := set_world W w (set_conns W (mput fd e (sv_conns W s)) s) in
          match r with
          | WantWrite =>
            [trace (str "will poll write events for fd " ++ to_string fd)] ++
            set_messages v linux W (ctl_ok 1 a) fd (Z.lor PRead PWrite) s
          | WantRead => []
          | DiscardConnection =>
            [info (str "closing connection")] ++ remove_messages v linux W fd s ++ erase_trace fd (remove linux W fd s)
          end
        | _ => []
        end
    end.
  (** The loop over the events, http2_server.cpp:136-142. *)
  Fixpoint events_trace (events : list (Z * (Z * surroundings))) (s : server W) : list message :=
    match events with
    | [] => []
    | (fd, (poll_events, a)) :: events' =>
      (if fd =? listener then incoming_trace a s else event_trace fd poll_events a s) ++
      match (if fd =? listener then handle_incoming_connection linux W a s
             else handle_connection_events linux W app cs T fd poll_events a s) with
      | Ret s' => events_trace events' s'
      | _ => []
      end
    end.
  (** One iteration of the loop of start, http2_server.cpp:129-142. *)
  Definition iterate_trace (it : iteration) (s : server W) : list message :=
    reap_trace (it_clock it) (sv_conns W s) s ++
    let s := reap_idle_connections linux W (it_clock it) s in
    let (events, p) := poller_poll linux (it_wait it) (sv_poller W s) (sv_kernel W s) in
    poll_trace events ++
    match events with
    | Error _ => []
    | Val events => events_trace events (set_poller W (p, sv_kernel W s) s)
    end.
  (** The loop and what follows it, http2_server.cpp:129-145. *)
  Fixpoint loop_trace (its : list iteration) (s : server W) : list message :=
    match sv_stop W s with
    | Some r => [info (str "server shutting down (reason: " ++ reason_text r ++ str ")")]
    | None =>
      match its with
      | [] => []
      | it :: its' =>
        iterate_trace it s ++
        match iterate linux listener W app cs T it s with
        | Ret s' => loop_trace its' s'
        | _ => []
        end
      end
    end.
  (** start, http2_server.cpp:120-146.  When it ends, also by an exception, the listener is closed
      (tcp_listener.h:12); what is said where the listener cannot be made is in ListenerTrace.v. *)
  Definition start_trace (port : Z) (made ok : bool) (stopped : option stop_reason) (k0 : kernel) (w0 : W)
      (its : list iteration) : list message :=
    if negb made then []
    else
      let s := Server W [] stopped new_poller (k_new listener k0) w0 [] in
      [info (str "listening on port " ++ to_string port)] ++ set_messages v linux W ok listener PRead s ++
      loop_trace its (set linux W ok listener PRead s) ++
      match loop linux listener W app cs T its (set linux W ok listener PRead s) with
      | Ret (true, _) | Throw => closing_trace listener
      | _ => []
      end.
End Trace.
