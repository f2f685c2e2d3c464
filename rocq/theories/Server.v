(** Model of lib/http2_server.cpp (class Http2Server) with TcpListener::try_accept. *)
From Verif Require Import Base Huffman Http Conn Poller.

(** 16 *)
Definition MAX_CONNECTIONS := 128.
(** enum class StopReason, stop_reason.h:8. *)
Inductive stop_reason := StopOther | StopSignal | StopStdOut | StopStdErr.

(** A connection.  Apart from the Http2Connection itself it is recorded which socket it
    owns, when it was made, what its last call of process returned and everything that
    was observed of it. *)
Record entry := Entry { e_socket : nat; e_born : Z; e_conn : conn; e_result : option result; e_trace : trace }.

(** What accept(2) and what follows it do: a descriptor (and whether it can be made
    non-blocking); EAGAIN or EINTR; another error. *)
Inductive accept_result := AcceptFd (fd : Z) (nonblocking : bool) | AcceptAgain | AcceptFails.
(** The surroundings while one event is handled: accept, whether the transport can be
    made (TLS only), the time, the transport's answers, and whether the calls of
    epoll_ctl find the resources they need. *)
Record surroundings := Around {
  ar_accept : accept_result; ar_transport : bool; ar_now : Z; ar_scripts : scripts; ar_ctl : list bool }.
(** One iteration of the loop: the time read when the connection with a given descriptor
    is looked at; what the poller's system call reports; the calls of stop() meanwhile. *)
Record iteration := Iteration {
  it_clock : Z -> Z; it_wait : wait_result (Z * surroundings); it_stops : list stop_reason }.

Section Server.
  Variable linux : bool.
  Variable listener : Z.
  Variable W : Type.
  Variable app : request -> W -> W * app_answer.
  Variable cs : bool.
  Variable T : tree.

  (** The data members, http2_server.h:35-40, and what they work on.  [sv_gone]: the
      connections that are no more. *)
  Record server := Server {
    sv_conns : list (Z * entry);
    sv_stop : option stop_reason;
    sv_poller : poller;
    sv_kernel : kernel;
    sv_world : W;
    sv_gone : list entry }.
  (** The local poller of start, http2_server.cpp:126. *)
  Definition set_poller (x : poller * kernel) (s : server) : server :=
    Server (sv_conns s) (sv_stop s) (fst x) (snd x) (sv_world s) (sv_gone s).
  (** What the operating system knows; not in the code. *)
  Definition set_kernel (k : kernel) (s : server) : server :=
    Server (sv_conns s) (sv_stop s) (sv_poller s) k (sv_world s) (sv_gone s).
  (** The data member connections_, http2_server.h:39. *)
  Definition set_conns (c : list (Z * entry)) (s : server) : server :=
    Server c (sv_stop s) (sv_poller s) (sv_kernel s) (sv_world s) (sv_gone s).
  (** What the application works on; router_, http2_server.h:36. *)
  Definition set_world (w : W) (s : server) : server :=
    Server (sv_conns s) (sv_stop s) (sv_poller s) (sv_kernel s) w (sv_gone s).
  (** poller.set, called in http2_server.cpp:33-53 and 80-118. *)
  Definition set (ok : bool) (fd events : Z) (s : server) : server :=
    set_poller (poller_set linux ok fd events (sv_poller s) (sv_kernel s)) s.
  (** poller.remove, called in http2_server.cpp:55-66 and 80-118. *)
  Definition remove (fd : Z) (s : server) : server :=
    set_poller (poller_remove linux fd (sv_poller s) (sv_kernel s)) s.
  (** connections_.erase: the destructors of connection and transport close the socket. *)
  Definition erase (fd : Z) (s : server) : server :=
    match mget fd (sv_conns s) with
    | None => s
    | Some e => Server (mdel fd (sv_conns s)) (sv_stop s) (sv_poller s) (k_close fd (sv_kernel s)) (sv_world s) (sv_gone s ++ [e])
    end.
  (** Whether the n-th call of epoll_ctl finds its resources. *)
  Definition ctl_ok (n : nat) (a : surroundings) : bool := nth n (ar_ctl a) true.

  (** TcpListener::try_accept, tcp_listener.cpp:83-100.  A descriptor is new: one that is
      in use, or negative, cannot be returned by accept and is read as EAGAIN. *)
  Definition try_accept (a : surroundings) (k : kernel) : out (option Z * kernel) :=
    match ar_accept a with
    | AcceptAgain => Ret (None, k)
    | AcceptFails => Throw
    | AcceptFd fd nonblocking =>
      if (fd <? 0) || mhas fd (k_open k) then Ret (None, k)
      else if nonblocking then Ret (Some fd, k_new fd k)
      else Throw
    end.

  (** establish_conn, http2_server.cpp:33-53. *)
  Definition establish_conn (a : surroundings) (s : server) : out server :=
    let! (fd, k) := try_accept a (sv_kernel s) in
    let s := set_kernel k s in
    match fd with
    | None => Ret s
    | Some fd =>
      if negb (ar_transport a) then Throw
      else
        let conn := Entry (k_objects (sv_kernel s) - 1)%nat (ar_now a) (fresh_conn (ar_now a)) None [] in
        let s := set_conns (mput fd conn (sv_conns s)) s in
        Ret (set (ctl_ok 0 a) fd PRead s)
    end.

  (** reap_idle_connections, http2_server.cpp:55-66; [l]: the connections the iterator has yet to visit. *)
  Fixpoint reap (clock : Z -> Z) (l : list (Z * entry)) (s : server) : server :=
    match l with
    | [] => s
    | (fd, e) :: l' =>
      reap clock l' (if has_timed_out (clock fd) (e_conn e) then erase fd (remove fd s) else s)
    end.
  (** reap_idle_connections, http2_server.cpp:55-66. *)
  Definition reap_idle_connections (clock : Z -> Z) (s : server) : server := reap clock (sv_conns s) s.

  (** handle_incoming_connection, http2_server.cpp:68-78; the overflow socket is closed at once. *)
  Definition handle_incoming_connection (a : surroundings) (s : server) : out server :=
    let at_capacity := lenZ (sv_conns s) >=? MAX_CONNECTIONS in
    if negb at_capacity then establish_conn a s
    else
      let! (fd, k) := try_accept a (sv_kernel s) in
      match fd with
      | None => Ret (set_kernel k s)
      | Some fd => Ret (set_kernel (k_close fd k) s)
      end.

  (** handle_connection_events, http2_server.cpp:80-118. *)
  Definition handle_connection_events (fd events : Z) (a : surroundings) (s : server) : out server :=
    match mget fd (sv_conns s) with
    | None => Ret s
    | Some e =>
      if has_event events PError || has_event events PHangup then Ret (remove fd (erase fd s))
      else if negb (has_event events PRead) && negb (has_event events PWrite) then Ret s
      else
        let s := if has_event events PWrite then set (ctl_ok 0 a) fd PRead s else s in
        let! (r, c, ev, w) := process W app cs T (ar_scripts a) (e_conn e) (sv_world s) in
        let e := Entry (e_socket e) (e_born e) c (Some r) (e_trace e ++ ev) in
        let s := set_world w (set_conns (mput fd e (sv_conns s)) s) in
        match r with
        | WantWrite => Ret (set (ctl_ok 1 a) fd (Z.lor PRead PWrite) s)
        | WantRead => Ret s
        | DiscardConnection => Ret (erase fd (remove fd s))
        end
    end.

  (** The loop over the events, http2_server.cpp:136-142. *)
  Fixpoint handle_events (events : list (Z * (Z * surroundings))) (s : server) : out server :=
    match events with
    | [] => Ret s
    | (fd, (poll_events, a)) :: events' =>
      let! s' :=
        if fd =? listener then handle_incoming_connection a s
        else handle_connection_events fd poll_events a s in
      handle_events events' s'
    end.

  (** stop, http2_server.cpp:148-151. *)
  Definition stop (r : stop_reason) (s : server) : server :=
    Server (sv_conns s) (Some r) (sv_poller s) (sv_kernel s) (sv_world s) (sv_gone s).
  (** One iteration of the loop of start, http2_server.cpp:129-142.  The flag is looked at between
      iterations only, so the calls of stop() are made at the end here. *)
  Definition iterate (it : iteration) (s : server) : out server :=
    let s := reap_idle_connections (it_clock it) s in
    let (events, p) := poller_poll linux (it_wait it) (sv_poller s) (sv_kernel s) in
    let s := set_poller (p, sv_kernel s) s in
    let! s :=
      match events with
      | Error _ => Ret s
      | Val events => handle_events events s
      end in
    Ret (fold_left (fun s r => stop r s) (it_stops it) s).
  (** The loop, http2_server.cpp:129-143: whether it has ended, or goes on after the given iterations. *)
  Fixpoint loop (its : list iteration) (s : server) : out (bool * server) :=
    match sv_stop s with
    | Some _ => Ret (true, s)
    | None =>
      match its with
      | [] => Ret (false, s)
      | it :: its' => let! s' := iterate it s in loop its' s'
      end
    end.
  (** start, 120-127: [k0] is the system before, [w0] the application; the listener gets
      the new descriptor [listener].  [made]: socket, fcntl, setsockopt, bind and listen
      succeed (tcp_listener.cpp:56-71); [ok]: so does epoll_ctl.  [stopped]: stop() was called before. *)
  Definition start (made ok : bool) (stopped : option stop_reason) (k0 : kernel) (w0 : W) (its : list iteration)
      : out (bool * server) :=
    if negb made then Throw
    else loop its (set ok listener PRead (Server [] stopped new_poller (k_new listener k0) w0 [])).
End Server.
