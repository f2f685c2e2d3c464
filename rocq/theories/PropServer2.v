(** C77 and C78: every reported event is served, and the application sees one sequence of
    requests. *)
From Verif Require Import Base BaseLemmas Huffman Http Conn SpecConn ConnLemmas ConnBasic ConnTerm ConnSpec ConnWit
  Poller Server SpecServer ServerProofs ServerReach SocketProofs ServerHistory PropServer.

(** ** C77.  [evs] is what the system reports in an iteration: each descriptor once, and
    no more than epoll_wait is given room for. *)
Theorem C77_served : forall linux listener W app cs T k0 w0 s it evs s' fd e,
  setting listener k0 -> reached linux listener W app cs T k0 w0 true enough_resources [] s ->
  iteration_ok it -> it_wait it = WaitEvents evs -> NoDup (map fst evs) ->
  (linux = true -> lenZ evs <= p_size (sv_poller W s)) ->
  iterate linux listener W app cs T it s = Ret s' -> conn_at W s fd e ->
  let idle := it_clock it fd - last_success (e_born e) (e_trace e) in
  (idle > 5000000000 -> became W s' fd e None) /\
  (idle <= 5000000000 -> forall m a, In (fd, (m, a)) evs ->
     exists o, served_event W app cs T e m a o /\ became W s' fd e o) /\
  (idle <= 5000000000 -> ~ In fd (map fst evs) -> became W s' fd e (Some e)).
Proof.
  intros linux listener W app cs T k0 w0 s it evs s' fd e [H1 H2] H Hok Hw Hd Hs E Hc idle.
  destruct (iterate_served _ _ _ _ _ _ _ _ H1 H2 it s s' evs H Hok Hw Hd Hs E fd e Hc) as [I1 I2].
  destruct (reached_good _ _ _ _ _ _ _ _ H1 H2 _ _ _ _ H) as (G & N & _).
  pose proof (timed_out_iff _ _ _ _ _ _ _ _ _ _ _ _ (it_clock it fd) (proj1 (g_lives _ _ _ _ _ _ _ _ _ G) fd e Hc)) as X.
  fold (expired (it_clock it) fd e) in X. fold idle in X. split; [|split].
  - intros K. apply I1. now apply X.
  - intros K. apply I2. destruct (expired (it_clock it) fd e); [|reflexivity]. assert (idle > 5000000000) by now apply X. lia.
  - intros K. apply I2. destruct (expired (it_clock it) fd e); [|reflexivity]. assert (idle > 5000000000) by now apply X. lia.
Qed.
Print Assumptions C77_served.
(** An arrival becomes a connection (below the limit, see C47), and nothing else does. *)
Theorem C77_arrival : forall linux listener W app cs T k0 w0 s it evs s' m a fd,
  setting listener k0 -> reached linux listener W app cs T k0 w0 true enough_resources [] s ->
  iteration_ok it -> it_wait it = WaitEvents evs -> NoDup (map fst evs) ->
  (linux = true -> lenZ evs <= p_size (sv_poller W s)) ->
  iterate linux listener W app cs T it s = Ret s' ->
  In (listener, (m, a)) evs -> ar_accept a = AcceptFd fd true -> 0 <= fd -> mget fd (k_open (sv_kernel W s)) = None ->
  lenZ (sv_conns W s) < 128 ->
  conn_at W s' fd (Entry (k_objects (sv_kernel W s)) (ar_now a) (fresh_conn (ar_now a)) None []).
Proof. intros linux listener W app cs T k0 w0 s it evs s' m a fd [H1 H2]. exact (iterate_arrival _ _ _ _ _ _ _ _ H1 H2 it s s' evs m a fd). Qed.
Print Assumptions C77_arrival.
Theorem C77_no_arrival : forall linux listener W app cs T k0 w0 ok A s it evs s',
  setting listener k0 -> reached linux listener W app cs T k0 w0 ok A [] s ->
  iteration_ok it -> it_wait it = WaitEvents evs -> iterate linux listener W app cs T it s = Ret s' ->
  ~ In listener (map fst evs) -> k_objects (sv_kernel W s') = k_objects (sv_kernel W s).
Proof.
  intros linux listener W app cs T k0 w0 ok A s it evs s' [H1 H2] H. destruct (reached_good _ _ _ _ _ _ _ _ H1 H2 _ _ _ _ H) as (G & N & _).
  exact (iterate_no_arrival _ _ _ _ _ _ _ _ H2 it s s' evs G N).
Qed.
Print Assumptions C77_no_arrival.
(** Four clients: one is idle, one sends a request, one hangs up, one sends nonsense; and
    a fifth arrives, all in one iteration. *)
Definition busy : iteration := Iteration (fun fd => if fd =? 4 then 5000000001 else 0)
  (WaitEvents [sends 5 (w_hello ++ w_get); (6, (17, quiet AcceptAgain nothing)); sends 7 (w_hello ++ [255; 255; 255; 0; 0; 0; 0; 0; 0]); arrives 8]) [].
Example C77_case : forall linux T, exists s s',
  reached linux 3 unit hi true T k_std tt true enough_resources [] s /\ map fst (sv_conns unit s) = [7; 6; 5; 4] /\
  iteration_ok busy /\ iterate linux 3 unit hi true T busy s = Ret s' /\
  map (fun x => (fst x, e_socket (snd x), e_result (snd x))) (sv_conns unit s') = [(8, 8%nat, None); (5, 5%nat, Some WantRead)] /\
  k_closed (sv_kernel unit s') = [Some 4%nat; Some 6%nat; Some 7%nat].
Proof.
  intros linux T. destruct (by_reached (linux := linux) (app := hi) (cs := true) (T := T) (w0 := tt) (map (fun n => at_time 0 [arrives n]) [4; 5; 6; 7])
    (fun s => map fst (sv_conns unit s) = [7; 6; 5; 4] /\ match iterate linux 3 unit hi true T busy s with
       | Ret s' => map (fun x => (fst x, e_socket (snd x), e_result (snd x))) (sv_conns unit s') = [(8, 8%nat, None); (5, 5%nat, Some WantRead)] /\
                   k_closed (sv_kernel unit s') = [Some 4%nat; Some 6%nat; Some 7%nat]
       | _ => False end)) as (s & H & K1 & K2).
  - destruct linux; vm_compute; repeat split; reflexivity.
  - apply iterations_ok. vm_compute. reflexivity.
  - exists s. destruct (iterate linux 3 unit hi true T busy s) as [s'| | |]; try destruct K2 as []. exists s'. split; [exact H|]. split; [exact K1|].
    split; [|auto]. assert (X : Forall iteration_ok [busy]) by (apply iterations_ok; vm_compute; reflexivity). now apply Forall_cons_iff in X as [X _].
Qed.

(** ** C78.  The application's state is the result of giving it all requests of all
    connections, one after the other; each connection's part of the sequence is its own. *)
Theorem C78_one_sequence : forall linux listener W app cs T k0 w0 ok A pending s,
  setting listener k0 -> reached linux listener W app cs T k0 w0 ok A pending s -> exists h, chronicle W app w0 s h.
Proof.
  intros linux listener W app cs T k0 w0 ok A pending s [H1 H2] H.
  destruct (reached_told _ _ _ _ _ _ _ _ H1 H2 _ _ _ _ H) as [_ (h & Hh & _)]. exists h. exact Hh.
Qed.
Print Assumptions C78_one_sequence.
(** An application that answers with the number of the request. *)
Definition counting : request -> Z -> Z * app_answer := fun _ n => (n + 1, Answers (Response 200 [] [n])).
Definition turns : list iteration :=
  [at_time 0 [arrives 4]; at_time 0 [arrives 5]; at_time 0 [sends 5 (w_hello ++ w_get); sends 4 (w_hello ++ w_get)]; at_time 0 [sends 4 [0; 0; 2; 1; 5; 0; 0; 0; 3; 130; 132]; (5, (16, quiet AcceptAgain nothing))]].
Example C78_case : forall linux T, exists s, reached linux 3 Z counting true T k_std 10 true enough_resources [] s /\ sv_world Z s = 13 /\
  map (fun x => map (fun x => option_map rs_body (snd x)) (requests (e_trace (snd x)))) (sv_conns Z s) = [[Some [11]; Some [12]]] /\
  map (fun x => map (fun x => option_map rs_body (snd x)) (requests (e_trace x))) (sv_gone Z s) = [[Some [10]]].
Proof. intros [] T; run turns. Qed.
