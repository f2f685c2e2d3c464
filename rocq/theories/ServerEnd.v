(** Model of the end of a server: how start (http2_server.cpp:120-146) leaves it by an
    exception while a client is accepted, and its destruction, with the messages of it. *)
From Verif Require Import Base Huffman Http Conn Poller Server AccessLog Messages ServerMessages ServerAgain ServerTrace.

Section End.
  Variable tls : bool.
  Variable W : Type.

  (** What handle_incoming_connection, http2_server.cpp:68-78, leaves when it throws: a socket that
      accept (tcp_listener.cpp:83-100) had made is closed again, by ~SocketFd (socket_fd.cpp:28-30). *)
  Definition left_by (a : surroundings) (s : server W) : server W :=
    match ar_accept a with
    | AcceptFd fd _ => set_kernel W (k_close fd (k_new fd (sv_kernel W s))) s
    | _ => s
    end.
  Section Run.
    Variable linux : bool.
    Variable listener : Z.
    Variable app : request -> W -> W * app_answer.
    Variable cs : bool.
    Variable T : tree.
    (** What the loop over the events, http2_server.cpp:136-142, leaves, also by an exception.  If that comes from a connection,
        the connection is still there; its state, which does not matter for its end, is taken to be that before. *)
    Fixpoint left_events (events : list (Z * (Z * surroundings))) (s : server W) : server W :=
      match events with
      | [] => s
      | (fd, (poll_events, a)) :: events' =>
        match (if fd =? listener then handle_incoming_connection linux W a s
               else handle_connection_events linux W app cs T fd poll_events a s) with
        | Ret s' => left_events events' s'
        | _ => if fd =? listener then left_by a s else s
        end
      end.
    (** The same of one iteration, http2_server.cpp:129-142, *)
    Definition left_iterate (it : iteration) (s : server W) : server W :=
      let s := reap_idle_connections linux W (it_clock it) s in
      let (events, p) := poller_poll linux (it_wait it) (sv_poller W s) (sv_kernel W s) in
      match events with
      | Error _ => set_poller W (p, sv_kernel W s) s
      | Val events => left_events events (set_poller W (p, sv_kernel W s) s)
      end.
    (** of the loop, http2_server.cpp:129-145, *)
    Fixpoint left_loop (its : list iteration) (s : server W) : server W :=
      match sv_stop W s, its with
      | None, it :: its' =>
        match iterate linux listener W app cs T it s with
        | Ret s' => left_loop its' s'
        | _ => left_iterate it s
        end
      | _, _ => s
      end.
    (** and of start, http2_server.cpp:120-146, whose local variables are destroyed (ServerAgain.v). *)
    Definition left_start (ok : bool) (stopped : option stop_reason) (k0 : kernel) (w0 : W) (its : list iteration) : server W :=
      finish W listener (left_loop its (set linux W ok listener PRead (Server W [] stopped new_poller (k_new listener k0) w0 []))).
  End Run.

  (** ~Http2Server (implicit, http2_server.h:35-40): the connections are destroyed, in an order
      that the standard leaves open; [order] is that of the keys of connections_.  ~TlsContext
      (tls_context.cpp:52-56), before that, is in TlsLife.v. *)
  Definition destroy (order : list Z) (s : server W) : server W := fold_left (fun s fd => erase W fd s) order s.
  (** Its messages, tls_transport.cpp:72-78, socket_fd.cpp:59-65. *)
  Fixpoint end_trace (order : list Z) (s : server W) : list message :=
    match order with
    | [] => []
    | fd :: order' => erase_trace tls W fd s ++ end_trace order' (erase W fd s)
    end.
End End.
