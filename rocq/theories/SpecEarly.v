(** Connections whose client has yet to complete the TLS handshake or the preface. *)
From Verif Require Import Base Http SpecConn Poller Server SpecServer.

(** What puts off the end of an idle connection. *)
Definition sign_of_life (e : event) : bool :=
  match e with EvHandshake _ | EvRead _ _ | EvWrite _ _ _ (Val _) => true | _ => false end.
Definition signs (tr : trace) : nat := length (filter sign_of_life tr).
Definition writes (tr : trace) : nat := length (filter is_write tr).
(** The handshake is done. *)
Definition handshaken (tr : trace) : Prop := exists t, In (EvHandshake t) tr.

(** epoll_wait(2) and poll(2): besides errors and hang-ups (bits 3 and 4) the system reports
    only what it was asked for: readability (bit 0) or writability (bit 2). *)
Definition asked_for (linux : bool) (W : Type) (s : server W) (fd m : Z) : Prop :=
  exists x, mget fd (p_fds (sv_poller W s)) = Some x /\
    (linux = true -> mget fd (k_watch (sv_kernel W s)) = Some (to_epoll_events x)) /\
    (Z.testbit m 0 = true -> Z.testbit x 0 = true) /\ (Z.testbit m 2 = true -> Z.testbit x 1 = true).

(** The iteration takes no longer than [d] (nanoseconds): all its readings of the clock lie
    in an interval of that length. *)
Definition script_times (s : scripts) : list Z := map fst (sc_hs s) ++ map fst (sc_rd s) ++ map fst (sc_wr s).
Definition in_time (d : Z) (it : iteration) : Prop :=
  exists t, (forall fd, t <= it_clock it fd <= t + d) /\
    match it_wait it with
    | WaitEvents evs => Forall (fun x => t <= ar_now (snd (snd x)) <= t + d /\
                                         Forall (fun u => t <= u <= t + d) (script_times (ar_scripts (snd (snd x))))) evs
    | _ => True
    end.
