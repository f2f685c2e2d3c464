(** What holds of a running server: sockets, connections and interest. *)
From Verif Require Import Base Huffman Http Conn SpecConn Poller Server.

(** A system in order: no descriptor twice, no object with two descriptors, objects are
    numbered from 0 on, there is no epoll instance yet and nothing was closed yet. *)
Definition in_order (k : kernel) : Prop :=
  (forall fd n, mget fd (k_open k) = Some n -> 0 <= fd /\ (n < k_objects k)%nat) /\
  (forall fd fd' n, mget fd (k_open k) = Some n -> mget fd' (k_open k) = Some n -> fd = fd') /\
  k_watch k = [] /\ k_closed k = [].

(** Where a server is started: the listening socket gets a descriptor not in use. *)
Definition setting (listener : Z) (k0 : kernel) : Prop :=
  in_order k0 /\ 0 <= listener /\ mget listener (k_open k0) = None.

Section Spec.
  Variable linux : bool.
  Variable listener : Z.
  Variable W : Type.
  Variable app : request -> W -> W * app_answer.
  Variable cs : bool.
  Variable T : tree.
  Variable k0 : kernel.
  Variable w0 : W.

  Notation server := (server W).
  Definition conn_at (s : server) (fd : Z) (e : entry) : Prop := mget fd (sv_conns W s) = Some e.

  (** The descriptors in use are those of before, the listener and those of the
      connections, which are different from the former. *)
  Definition descriptors (s : server) : Prop :=
    (forall fd e, conn_at s fd e -> 0 <= fd /\ fd <> listener /\ mget fd (k_open k0) = None) /\
    (forall fd n, mget fd (k_open (sv_kernel W s)) = Some n <->
       mget fd (k_open k0) = Some n \/ (fd = listener /\ n = k_objects k0) \/ exists e, conn_at s fd e /\ e_socket e = n).

  (** Each socket accepted so far (they are numbered after the listener) is owned by one
      connection, or has been closed once; nothing else was closed. *)
  Definition accepted (s : server) (n : nat) : Prop := (k_objects k0 < n < k_objects (sv_kernel W s))%nat.
  Definition sockets (s : server) : Prop :=
    (forall n, accepted s n <-> (exists fd e, conn_at s fd e /\ e_socket e = n) \/ In (Some n) (k_closed (sv_kernel W s))) /\
    (forall fd e, conn_at s fd e -> ~ In (Some (e_socket e)) (k_closed (sv_kernel W s))) /\
    (forall fd e fd' e', conn_at s fd e -> conn_at s fd' e' -> e_socket e = e_socket e' -> fd = fd') /\
    NoDup (k_closed (sv_kernel W s)) /\ ~ In None (k_closed (sv_kernel W s)) /\
    Forall (fun e => In (Some (e_socket e)) (k_closed (sv_kernel W s))) (sv_gone W s).

  (** Nothing but the listener and the connections is registered with the poller; on
      Linux epoll's interest list is what the poller takes it to be. *)
  Definition no_stale_interest (s : server) : Prop :=
    (forall fd x, mget fd (p_fds (sv_poller W s)) = Some x -> fd = listener \/ exists e, conn_at s fd e) /\
    (linux = true -> forall fd, mget fd (k_watch (sv_kernel W s)) =
                                option_map to_epoll_events (mget fd (p_fds (sv_poller W s)))).
  (** The listener and every connection is watched for readability, and after WantWrite
      also for writability. *)
  Definition all_watched (s : server) : Prop :=
    mget listener (p_fds (sv_poller W s)) = Some PRead /\
    forall fd e, conn_at s fd e -> exists x, mget fd (p_fds (sv_poller W s)) = Some x /\
      (x = PRead \/ x = Z.lor PRead PWrite) /\ (e_result e = Some WantWrite -> x = Z.lor PRead PWrite).

  (** The life of a connection, as far as its own octets are concerned, is one described
      by [session]: what other connections do can be seen in the application's state only. *)
  Definition own_life (e : entry) (w : W) : Prop :=
    session W app cs T (fun _ _ => True) (e_born e) w0 (fun _ => True) (e_result e) (e_conn e) (e_trace e) w.
  Definition lives (s : server) : Prop :=
    (forall fd e, conn_at s fd e -> own_life e (sv_world W s)) /\ Forall (fun e => own_life e (sv_world W s)) (sv_gone W s).
  (** A connection to be discarded is gone. *)
  Definition none_discarded (s : server) : Prop := forall fd e, conn_at s fd e -> e_result e <> Some DiscardConnection.

  Definition within_limits (s : server) : Prop :=
    lenZ (sv_conns W s) <= 128 /\ NoDup (map fst (sv_conns W s)) /\
    In (p_size (sv_poller W s)) [64; 128; 256].

  (** All connections there have been. *)
  Definition anyone (s : server) (e : entry) : Prop := (exists fd, conn_at s fd e) \/ In e (sv_gone W s).
  (** What concerns one socket in a list of observations of several. *)
  Definition of_socket (n : nat) (h : list (nat * event)) : trace := map snd (filter (fun x => Nat.eqb (fst x) n) h).
  (** The observations of all connections, merged into one sequence.  The application was
      given the requests in it, in this order, and nothing else. *)
  Record chronicle (s : server) (h : list (nat * event)) : Prop := {
    ch_own : forall e, anyone s e -> e_trace e = of_socket (e_socket e) h;
    ch_only : forall n ev, In (n, ev) h -> exists e, anyone s e /\ e_socket e = n;
    ch_app : handled eq app w0 (requests (map snd h)) (sv_world W s) }.

  (** What becomes of a connection for which the system reports the mask [m] (bit 0:
      readable, 2: writable, 3: error, 4: hang-up).  None: it is no more. *)
  Inductive served_event (e : entry) (m : Z) (a : surroundings) : option entry -> Prop :=
  | served_broken : Z.testbit m 3 = true \/ Z.testbit m 4 = true -> served_event e m a None
  | served_nothing : Z.testbit m 0 = false -> Z.testbit m 2 = false -> Z.testbit m 3 = false -> Z.testbit m 4 = false ->
      served_event e m a (Some e)
  | served_process : forall w r c tr w', Z.testbit m 0 = true \/ Z.testbit m 2 = true ->
      Z.testbit m 3 = false -> Z.testbit m 4 = false ->
      process W app cs T (ar_scripts a) (e_conn e) w = Ret (r, c, tr, w') ->
      served_event e m a match r with
                         | DiscardConnection => None
                         | _ => Some (Entry (e_socket e) (e_born e) c (Some r) (e_trace e ++ tr))
                         end.
  (** The connection [e], with descriptor [fd] in [s], is now [o]. *)
  Definition became (s' : server) (fd : Z) (e : entry) (o : option entry) : Prop :=
    match o with
    | Some e' => conn_at s' fd e'
    | None => ~ exists fd' e', conn_at s' fd' e' /\ e_socket e' = e_socket e
    end.

  (** What the surroundings are assumed to do: reads give between 1 and 16384 octets. *)
  Definition iteration_ok (it : iteration) : Prop :=
    match it_wait it with
    | WaitEvents evs => Forall (fun x => scripts_ok (ar_scripts (snd (snd x)))) evs
    | _ => True
    end.
  (** epoll_ctl never lacks resources. *)
  Definition enough_resources (it : iteration) : Prop :=
    match it_wait it with
    | WaitEvents evs => Forall (fun x => Forall (fun ok => ok = true) (ar_ctl (snd (snd x)))) evs
    | _ => True
    end.

  (** A server at any moment between two of its steps: [reached ok A pending s].  [ok]:
      the listener could be registered; the iterations satisfy [A]; [pending] are the
      events reported by the poller that have yet to be handled. *)
  Inductive reached (ok : bool) (A : iteration -> Prop) : list (Z * (Z * surroundings)) -> server -> Prop :=
  | reached_start : forall stopped,
      reached ok A [] (set linux W ok listener PRead (Server W [] stopped new_poller (k_new listener k0) w0 []))
  | reached_reap : forall clock s, reached ok A [] s -> reached ok A [] (reap_idle_connections linux W clock s)
  | reached_poll : forall it s evs p, reached ok A [] s -> iteration_ok it -> A it ->
      poller_poll linux (it_wait it) (sv_poller W s) (sv_kernel W s) = (evs, p) ->
      reached ok A (match evs with Val evs => evs | Error _ => [] end) (set_poller W (p, sv_kernel W s) s)
  | reached_incoming : forall m a pending s s', reached ok A ((listener, (m, a)) :: pending) s ->
      handle_incoming_connection linux W a s = Ret s' -> reached ok A pending s'
  | reached_event : forall fd m a pending s s', reached ok A ((fd, (m, a)) :: pending) s -> fd <> listener ->
      handle_connection_events linux W app cs T fd m a s = Ret s' -> reached ok A pending s'
  | reached_stop : forall pending s r, reached ok A pending s -> reached ok A pending (stop W r s).
End Spec.
