(** Model of what is left of a server when start (http2_server.cpp:120-146) has ended, by
    returning or by an exception, and of calling it again. *)
From Verif Require Import Base Huffman Http Conn Poller Server.

Section Again.
  Variable linux : bool.
  Variable W : Type.
  Variable app : request -> W -> W * app_answer.
  Variable cs : bool.
  Variable T : tree.
  (** The local variables of start are destroyed, the later first: the poller with its epoll
      instance (126; epoll_poller.cpp:17-21), the listener with its socket (121).  The data
      members, http2_server.h:35-40, stay. *)
  Definition finish (listener : Z) (s : server W) : server W :=
    let k := sv_kernel W s in
    Server W (sv_conns W s) (sv_stop W s) (sv_poller W s)
      (k_close listener (Kernel (k_open k) [] (k_objects k) (k_closed k))) (sv_world W s) (sv_gone W s).
  (** start, http2_server.cpp:120-143, on a server in any state; [sv_gone] and [k_closed] become what is no
      more, and what was closed, since. *)
  Definition since_now (k : kernel) : kernel := Kernel (k_open k) (k_watch k) (k_objects k) [].
  (** start, http2_server.cpp:120-143, on a server in any state. *)
  Definition start_on (listener : Z) (made ok : bool) (s : server W) (its : list iteration) : out (bool * server W) :=
    if negb made then Throw
    else loop linux listener W app cs T its
           (set linux W ok listener PRead
              (Server W (sv_conns W s) (sv_stop W s) new_poller (k_new listener (since_now (sv_kernel W s))) (sv_world W s) [])).
End Again.
