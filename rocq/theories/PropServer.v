(** The properties of the server loop (C47-C53, C76), of socket handles (C54), of transport
    results (C69) and of event masks (C70).

    [reached ok A pending s] (SpecServer.v): [s] is the server at any moment of any run
    whose iterations satisfy [A], with the events [pending] yet to be handled. *)
From Verif Require Import Base BaseLemmas Huffman Http Conn SpecConn ConnLemmas ConnBasic ConnTerm ConnSpec ConnWit
  Poller Server SpecServer ServerProofs ServerReach SocketFd Transport SocketProofs.

(** ** Cases *)
(** A system with descriptors 0, 1, 2 in use; the listener is 3. *)
Definition k_std : kernel := Kernel [(0, 0%nat); (1, 1%nat); (2, 2%nat)] [] 3 [].
Lemma k_std_setting : setting 3 k_std.
Proof.
  split; [|split; [lia|reflexivity]]. split; [|split; [|split; reflexivity]].
  - intros fd n. cbn [k_std k_open mget k_objects]. destruct (Z.eqb_spec fd 0), (Z.eqb_spec fd 1), (Z.eqb_spec fd 2); intros [= <-]; lia.
  - intros fd fd' n. cbn [k_std k_open mget]. destruct (Z.eqb_spec fd 0), (Z.eqb_spec fd 1), (Z.eqb_spec fd 2), (Z.eqb_spec fd' 0), (Z.eqb_spec fd' 1), (Z.eqb_spec fd' 2);
      intros [= <-]; intros [=]; lia.
Qed.
Definition quiet (a : accept_result) (s : scripts) : surroundings := Around a true 0 s [].
Definition nothing : scripts := Scripts [] [] [].
Definition at_time (t : Z) (evs : list (Z * (Z * surroundings))) : iteration := Iteration (fun _ => t) (WaitEvents evs) [].
Definition arrives (fd : Z) : Z * (Z * surroundings) := (3, (1, quiet (AcceptFd fd true) nothing)).
Definition sends (fd : Z) (o : bytes) : Z * (Z * surroundings) := (fd, (1, quiet AcceptAgain (deliver [octets o; block_read]))).
Lemma iterations_ok l : forallb (fun it => match it_wait it with
    | WaitEvents evs => forallb (fun x => forallb (fun x => match snd x with
        | RdData o => forallb (fun b => (0 <=? b) && (b <? 256)) o && (1 <=? lenZ o) && (lenZ o <=? TEMP_READ_BUFFER_SIZE)
        | RdErr _ => true end) (sc_rd (ar_scripts (snd (snd x)))) && forallb (fun x => x) (ar_ctl (snd (snd x)))) evs
    | _ => true end) l = true -> Forall iteration_ok l /\ Forall enough_resources l.
Proof.
  intros H. rewrite forallb_forall in H. split; apply Forall_forall; intros it Hi; specialize (H it Hi); unfold iteration_ok, enough_resources;
    destruct (it_wait it) as [| |evs]; auto; apply Forall_forall; intros x Hx; rewrite forallb_forall in H; specialize (H x Hx); apply andb_true_iff in H as [H H'].
  - now apply scripts_okb.
  - apply Forall_forall. intros b Hb. rewrite forallb_forall in H'. exact (H' b Hb).
Qed.
(** What a run of given iterations comes to. *)
Lemma by_start {linux W app cs T its w0} (Phi : bool -> server W -> Prop) :
  match start linux 3 W app cs T true true None k_std w0 its with Ret (b, s) => Phi b s | _ => False end ->
  exists b s, start linux 3 W app cs T true true None k_std w0 its = Ret (b, s) /\ Phi b s.
Proof. destruct (start _ _ _ _ _ _ _ _ _ _ _ _) as [[b s]| | |]; try easy. eauto. Qed.
Lemma by_reached {linux W app cs T} its {w0} (Phi : server W -> Prop) :
  match start linux 3 W app cs T true true None k_std w0 its with Ret (_, s) => Phi s | _ => False end ->
  Forall iteration_ok its /\ Forall enough_resources its ->
  exists s, reached linux 3 W app cs T k_std w0 true enough_resources [] s /\ Phi s.
Proof.
  intros H [H1 H2]. destruct (start _ _ _ _ _ _ _ _ _ _ _ _) as [[b s]| | |] eqn:E; try easy. exists s. split; [|exact H].
  exact (start_reached _ _ _ _ _ _ _ _ _ _ _ _ _ _ _ E H1 H2).
Qed.
Ltac run r := apply (by_reached r); [vm_compute; repeat split; reflexivity|apply iterations_ok; vm_compute; reflexivity].

(** Everything [start] does is made of the steps of [reached]. *)
Theorem C47_start : forall linux listener W app cs T k0 w0 made ok stopped its b s A,
  start linux listener W app cs T made ok stopped k0 w0 its = Ret (b, s) ->
  Forall iteration_ok its -> Forall A its -> reached linux listener W app cs T k0 w0 ok A [] s.
Proof. exact start_reached. Qed.
Print Assumptions C47_start.

(** C47 *)
Theorem C47_limit : forall linux listener W app cs T k0 w0 ok A pending s,
  setting listener k0 -> reached linux listener W app cs T k0 w0 ok A pending s -> lenZ (sv_conns W s) <= 128.
Proof.
  intros linux listener W app cs T k0 w0 ok A pending s [H1 H2] H.
  destruct (reached_good _ _ _ _ _ _ _ _ H1 H2 _ _ _ _ H) as (G & _). apply (g_limit _ _ _ _ _ _ _ _ _ G).
Qed.
Print Assumptions C47_limit.
(** A connection that arrives is refused at the limit only: its socket is closed, and
    nothing else changes. *)
Theorem C47_arrival : forall linux listener W app cs T k0 w0 ok A pending s a s' fd,
  setting listener k0 -> reached linux listener W app cs T k0 w0 ok A pending s ->
  ar_accept a = AcceptFd fd true -> 0 <= fd -> mget fd (k_open (sv_kernel W s)) = None ->
  handle_incoming_connection linux W a s = Ret s' ->
  (lenZ (sv_conns W s) = 128 -> sv_conns W s' = sv_conns W s /\ sv_poller W s' = sv_poller W s /\ sv_world W s' = sv_world W s /\
     sv_stop W s' = sv_stop W s /\ k_closed (sv_kernel W s') = k_closed (sv_kernel W s) ++ [Some (k_objects (sv_kernel W s))] /\
     (forall x, mget x (k_open (sv_kernel W s')) = mget x (k_open (sv_kernel W s))) /\
     (forall x, x <> fd -> mget x (k_watch (sv_kernel W s')) = mget x (k_watch (sv_kernel W s)))) /\
  (lenZ (sv_conns W s) < 128 ->
     (forall x e, conn_at W s' x e <-> conn_at W s x e \/
        (x = fd /\ e = Entry (k_objects (sv_kernel W s)) (ar_now a) (fresh_conn (ar_now a)) None [])) /\
     k_closed (sv_kernel W s') = k_closed (sv_kernel W s) /\ sv_world W s' = sv_world W s /\ sv_stop W s' = sv_stop W s).
Proof.
  intros linux listener W app cs T k0 w0 ok A pending s a s' fd [H1 H2] H Ha Hf Ho E.
  destruct (reached_good _ _ _ _ _ _ _ _ H1 H2 _ _ _ _ H) as (G & _).
  assert (Ht : try_accept a (sv_kernel W s) = Ret (Some fd, k_new fd (sv_kernel W s))).
  { unfold try_accept. rewrite Ha. apply mhas_false in Ho. rewrite Ho. destruct (Z.ltb_spec fd 0); [lia|reflexivity]. }
  unfold handle_incoming_connection, establish_conn, MAX_CONNECTIONS in E. rewrite Ht in E. rewrite Z.geb_leb in E. split; intros Hl.
  - rewrite Hl in E. cbn [Z.leb Z.compare Pos.compare Pos.compare_cont negb obind] in E. injection E as <-. unfold k_close. cbn [k_new k_open]. rewrite mget_mput, Z.eqb_refl.
    cbn [set_kernel sv_conns sv_poller sv_world sv_stop sv_kernel k_open k_watch k_closed k_new].
    repeat (split; [reflexivity|]). split; intros x.
    + rewrite mget_mdel, mget_mput. destruct (Z.eqb_spec x fd) as [->|N]; [now symmetry|reflexivity].
    + intros N. rewrite mget_mdel. apply Z.eqb_neq in N. now rewrite N.
  - destruct (Z.leb_spec 128 (lenZ (sv_conns W s))); [lia|]. cbn [negb obind] in E. destruct (ar_transport a); [|discriminate]. cbn [negb set_kernel sv_kernel k_new k_objects] in E.
    rewrite Nat.sub_succ, Nat.sub_0_r in E. injection E as <-. split.
    + intros x e. unfold conn_at. cbn [set set_poller set_conns sv_conns]. rewrite mget_mput. destruct (Z.eqb_spec x fd) as [->|N].
      * assert (K : mget fd (sv_conns W s) = None).
        { destruct (mget fd (sv_conns W s)) as [e'|] eqn:K; [|reflexivity]. apply (good_open _ _ _ _ _ _ _ _ H2 _ _ _ G) in K. congruence. }
        rewrite K. split; [intros [= <-]; auto|]. intros [K'|[_ ->]]; [discriminate|reflexivity].
      * split; [auto|]. intros [K|[K _]]; [exact K|easy].
    + split; [|split; reflexivity]. unfold set, set_poller, poller_set. cbn [sv_kernel]. destruct linux; [|reflexivity].
      unfold epoll_ctl. cbn [k_open k_new k_watch k_objects k_closed set_conns set_kernel sv_kernel sv_poller].
      destruct (mhas fd _), (mhas fd _), (mhas fd _), (ctl_ok 0 a); reflexivity.
Qed.
Print Assumptions C47_arrival.
(** 129 clients. *)
Example C47_case : forall linux T, exists s, reached linux 3 unit hi true T k_std tt true enough_resources [] s /\
  lenZ (sv_conns unit s) = 128 /\ k_closed (sv_kernel unit s) = [Some 132%nat].
Proof.
  intros linux T. apply (by_reached (map (fun n => at_time 0 [arrives (4 + Z.of_nat n)]) (seq 0 129))).
  - destruct linux; vm_compute; repeat split; reflexivity.
  - apply iterations_ok. vm_compute. reflexivity.
Qed.

(** C48 *)
Theorem C48_registered : forall linux listener W app cs T k0 w0 pending s,
  setting listener k0 -> reached linux listener W app cs T k0 w0 true enough_resources pending s ->
  (forall fd, mget fd (p_fds (sv_poller W s)) <> None <-> fd = listener \/ exists e, conn_at W s fd e) /\
  (linux = true -> forall fd, mget fd (k_watch (sv_kernel W s)) <> None <-> fd = listener \/ exists e, conn_at W s fd e).
Proof.
  intros linux listener W app cs T k0 w0 pending s [H1 H2] H.
  destruct (reached_good _ _ _ _ _ _ _ _ H1 H2 _ _ _ _ H) as (G & _). destruct (reached_watched _ _ _ _ _ _ _ _ H1 H2 _ _ H) as ((W1 & W2) & _).
  destruct (g_stale _ _ _ _ _ _ _ _ _ G) as [S1 S2].
  assert (K : forall fd, mget fd (p_fds (sv_poller W s)) <> None <-> fd = listener \/ exists e, conn_at W s fd e).
  { intros fd. split.
    - destruct (mget fd (p_fds (sv_poller W s))) as [v|] eqn:E; [|easy]. intros _. exact (S1 _ _ E).
    - intros [->|[e He]]; [congruence|]. destruct (W2 fd e He) as (v & V & _). congruence. }
  split; [exact K|]. intros Hl fd. rewrite <- K, (S2 Hl fd). destruct (mget fd (p_fds (sv_poller W s))); split; easy.
Qed.
Print Assumptions C48_registered.
(** Without resources connections may remain unregistered, but nothing else is registered. *)
Theorem C48_nothing_else : forall linux listener W app cs T k0 w0 ok A pending s fd,
  setting listener k0 -> reached linux listener W app cs T k0 w0 ok A pending s ->
  mget fd (p_fds (sv_poller W s)) <> None \/ linux = true /\ mget fd (k_watch (sv_kernel W s)) <> None ->
  fd = listener \/ exists e, conn_at W s fd e.
Proof.
  intros linux listener W app cs T k0 w0 ok A pending s fd [H1 H2] H K.
  destruct (reached_good _ _ _ _ _ _ _ _ H1 H2 _ _ _ _ H) as (G & _). destruct (g_stale _ _ _ _ _ _ _ _ _ G) as [S1 S2].
  assert (K' : mget fd (p_fds (sv_poller W s)) <> None).
  { destruct K as [K|[Hl K]]; [exact K|]. rewrite (S2 Hl) in K. intros E. now rewrite E in K. }
  destruct (mget fd (p_fds (sv_poller W s))) as [v|] eqn:E; [|easy]. exact (S1 _ _ E).
Qed.
Print Assumptions C48_nothing_else.
(** Two clients; one sends a request, the other hangs up; a third gets its descriptor. *)
Definition some_run : list iteration :=
  [at_time 0 [arrives 4]; at_time 0 [arrives 5]; at_time 0 [sends 4 (w_hello ++ w_get); (5, (16, quiet AcceptAgain nothing))]; at_time 0 [arrives 5]].
Example C48_case : forall linux T, exists s, reached linux 3 unit hi true T k_std tt true enough_resources [] s /\
  map fst (sv_conns unit s) = [5; 4] /\ map fst (p_fds (sv_poller unit s)) = [5; 4; 3] /\ k_closed (sv_kernel unit s) = [Some 5%nat].
Proof. intros [] T; run some_run. Qed.

(** C49 *)
Theorem C49_reaped : forall linux listener W app cs T k0 w0 ok A pending s clock fd e,
  setting listener k0 -> reached linux listener W app cs T k0 w0 ok A pending s ->
  (conn_at W (reap_idle_connections linux W clock s) fd e <->
   conn_at W s fd e /\ clock fd - last_success (e_born e) (e_trace e) <= 5000000000).
Proof.
  intros linux listener W app cs T k0 w0 ok A pending s clock fd e [H1 H2] H.
  destruct (reached_good _ _ _ _ _ _ _ _ H1 H2 _ _ _ _ H) as (G & N & _).
  destruct (reap_all _ _ _ _ _ _ _ _ H2 clock s G N) as (_ & _ & _ & _ & _ & I & _). unfold conn_at. rewrite I.
  destruct (mget fd (sv_conns W s)) as [e'|] eqn:E; [|split; [discriminate|easy]].
  pose proof (timed_out_iff _ _ _ _ _ _ _ _ _ _ _ _ (clock fd) (proj1 (g_lives _ _ _ _ _ _ _ _ _ G) fd e' E)) as X.
  fold (expired clock fd e') in X. destruct (expired clock fd e').
  - split; [discriminate|]. intros [[= <-] K]. assert (clock fd - last_success (e_born e') (e_trace e') > 5000000000) by now apply X. lia.
  - split; [|intros [K _]; exact K]. intros [= <-]. split; [reflexivity|]. destruct (Z_le_gt_dec (clock fd - last_success (e_born e') (e_trace e')) 5000000000) as [K|K]; [exact K|].
    apply X in K. discriminate.
Qed.
Print Assumptions C49_reaped.
Example C49_case : forall linux T, exists s, reached linux 3 unit hi true T k_std tt true enough_resources [] s /\
  map fst (sv_conns unit s) = [5; 4] /\
  map fst (sv_conns unit (reap_idle_connections linux unit (fun fd => if fd =? 5 then 5000000000 else 5000000001) s)) = [5].
Proof. intros [] T; run some_run. Qed.

(** C50.  Everything a connection consists of: its entry (with its whole output), its
    descriptor and the interest in it. *)
Definition untouched {W} (s s' : server W) (x : Z) : Prop :=
  mget x (sv_conns W s') = mget x (sv_conns W s) /\ mget x (p_fds (sv_poller W s')) = mget x (p_fds (sv_poller W s)) /\
  mget x (k_open (sv_kernel W s')) = mget x (k_open (sv_kernel W s)) /\ mget x (k_watch (sv_kernel W s')) = mget x (k_watch (sv_kernel W s)).
Theorem C50_isolated : forall linux listener W app cs T k0 w0 ok A pending s s' fd m a x,
  setting listener k0 -> reached linux listener W app cs T k0 w0 ok A pending s ->
  (handle_connection_events linux W app cs T fd m a s = Ret s' -> x <> fd -> untouched s s' x) /\
  (handle_incoming_connection linux W a s = Ret s' -> (exists e, conn_at W s x e) -> untouched s s' x).
Proof.
  intros linux listener W app cs T k0 w0 ok A pending s s' fd m a x [H1 H2] H.
  destruct (reached_good _ _ _ _ _ _ _ _ H1 H2 _ _ _ _ H) as (G & _). split; intros E K.
  - exact (events_part _ _ _ _ _ _ _ _ H2 _ _ _ _ _ _ G K E).
  - destruct K as [e K]. apply (incoming_part _ _ _ _ _ _ _ w0 H2 a s s' x G E). rewrite (good_open _ _ _ _ _ _ _ _ H2 _ _ _ G K). discriminate.
Qed.
Print Assumptions C50_isolated.
(** An event reaches the connection it was reported for, as it was then. *)
Theorem C50_delivery : forall linux listener W app cs T k0 w0 ok A s it evs p done fd m a rest s',
  setting listener k0 -> reached linux listener W app cs T k0 w0 ok A [] s -> iteration_ok it ->
  poller_poll linux (it_wait it) (sv_poller W s) (sv_kernel W s) = (Val evs, p) ->
  evs = done ++ (fd, (m, a)) :: rest -> fd <> listener ->
  handle_events linux listener W app cs T done (set_poller W (p, sv_kernel W s) s) = Ret s' ->
  exists e, conn_at W s fd e /\ conn_at W s' fd e.
Proof.
  intros linux listener W app cs T k0 w0 ok A s it evs p done fd m a rest s' [H1 H2] H Hok Ep Ee Hf E.
  destruct (reached_good _ _ _ _ _ _ _ _ H1 H2 _ _ _ _ H) as (G & N & _).
  destruct (poll_spec _ _ _ _ _ _ _ _ _ _ _ _ G Ep) as (P1 & P2 & P3). destruct (P3 evs eq_refl) as (Q1 & Q2 & Q3).
  pose proof (poll_around _ _ _ _ _ _ _ _ _ _ _ _ G Hok Ep) as Ha. subst evs. cbn beta iota in Ha. apply Forall_app in Ha as [Ha _].
  assert (K : exists e, conn_at W s fd e).
  { destruct (Q2 fd) as [K|K]; [rewrite map_app; apply in_or_app; right; now left|easy|exact K]. }
  destruct K as [e K]. exists e. split; [exact K|].
  pose proof (batch_delivery _ _ _ _ _ _ _ _ H2 done (set_poller W (p, sv_kernel W s) s) s' fd m a rest (size_good _ _ _ _ _ _ _ _ _ _ G P1 P2) N Ha Q1 Hf e K E) as D.
  unfold conn_at. rewrite (proj1 D). exact K.
Qed.
Print Assumptions C50_delivery.
(** Each connection, and each one that is gone, lived a life of its own: what it received
    and sent is what a single connection may receive and send ([session], the subject of
    the properties of connections). *)
Theorem C50_own_life : forall linux listener W app cs T k0 w0 ok A pending s e,
  setting listener k0 -> reached linux listener W app cs T k0 w0 ok A pending s ->
  (exists fd, conn_at W s fd e) \/ In e (sv_gone W s) ->
  exists w, session W app cs T (fun _ _ => True) (e_born e) w0 (fun _ => True) (e_result e) (e_conn e) (e_trace e) w.
Proof.
  intros linux listener W app cs T k0 w0 ok A pending s e [H1 H2] H K. exists (sv_world W s).
  destruct (reached_good _ _ _ _ _ _ _ _ H1 H2 _ _ _ _ H) as (G & _). destruct (g_lives _ _ _ _ _ _ _ _ _ G) as [L1 L2].
  destruct K as [[fd K]|K]; [exact (L1 fd e K)|]. rewrite Forall_forall in L2. exact (L2 e K).
Qed.
Print Assumptions C50_own_life.
(** In the run above the first client gets its answer whatever the second does; in one
    batch its descriptor is closed, and the next client that gets it starts anew. *)
Example C50_case : forall linux T, exists s, reached linux 3 unit hi true T k_std tt true enough_resources [] s /\
  map (fun e => e_result (snd e)) (sv_conns unit s) = [None; Some WantRead] /\
  map (fun e => requests (e_trace (snd e))) (sv_conns unit s) = [[]; [(get_root, Some (Response 200 [] [104; 105]))]] /\
  map (fun e => e_result e) (sv_gone unit s) = [None].
Proof. intros [] T; run some_run. Qed.

(** C51 *)
Theorem C51_stops : forall linux listener W app cs T made ok k0 w0 its1 it its2 b s,
  Forall (fun it => it_stops it = []) its1 -> it_stops it <> [] ->
  start linux listener W app cs T made ok None k0 w0 (its1 ++ [it]) = Ret (b, s) ->
  b = true /\ sv_stop W s = Some (last (it_stops it) StopOther) /\
  start linux listener W app cs T made ok None k0 w0 (its1 ++ it :: its2) = Ret (true, s).
Proof.
  intros linux listener W app cs T made ok k0 w0 its1 it its2 b s H1 H2. unfold start. destruct made; [|discriminate]. cbn [negb]. intros E.
  refine (loop_stops linux listener W app cs T w0 its1 it its2 _ b s H1 H2 _ E). reflexivity.
Qed.
Print Assumptions C51_stops.
(** It does not end otherwise; and it does nothing at all when stopped before. *)
Theorem C51_only_then : forall linux listener W app cs T made ok k0 w0 its b s,
  Forall (fun it => it_stops it = []) its ->
  start linux listener W app cs T made ok None k0 w0 its = Ret (b, s) -> b = false /\ sv_stop W s = None.
Proof.
  intros linux listener W app cs T made ok k0 w0 its b s H. unfold start. destruct made; [|discriminate]. cbn [negb]. intros E.
  refine (loop_goes_on linux listener W app cs T w0 its _ b s H _ E). reflexivity.
Qed.
Print Assumptions C51_only_then.
Theorem C51_before : forall linux listener W app cs T ok r k0 w0 its b s,
  start linux listener W app cs T true ok (Some r) k0 w0 its = Ret (b, s) -> b = true /\ sv_stop W s = Some r /\ sv_conns W s = [].
Proof.
  intros linux listener W app cs T ok r k0 w0 its b s. unfold start. cbn [negb].
  rewrite loop_stopped with (r := r) by reflexivity. intros [= <- <-]. repeat split.
Qed.
Print Assumptions C51_before.
Example C51_case : forall linux T, exists b s,
  start linux 3 unit hi true T true true None k_std tt
    (some_run ++ [Iteration (fun _ => 0) WaitNothing [StopStdErr; StopSignal]; at_time 0 [arrives 9]]) = Ret (b, s) /\
  b = true /\ sv_stop unit s = Some StopSignal /\ map fst (sv_conns unit s) = [5; 4].
Proof. intros linux T. apply by_start. destruct linux; vm_compute; repeat split; reflexivity. Qed.

(** C52 *)
Theorem C52_write_interest : forall linux listener W app cs T k0 w0 pending s fd e,
  setting listener k0 -> reached linux listener W app cs T k0 w0 true enough_resources pending s -> conn_at W s fd e ->
  exists x, mget fd (p_fds (sv_poller W s)) = Some x /\ has_event x PRead = true /\
    (e_result e = Some WantWrite -> has_event x PWrite = true) /\
    (linux = true -> exists y, mget fd (k_watch (sv_kernel W s)) = Some y /\ Z.testbit y 0 = true /\
       (e_result e = Some WantWrite -> Z.testbit y 2 = true)).
Proof.
  intros linux listener W app cs T k0 w0 pending s fd e [H1 H2] H Hc.
  destruct (reached_good _ _ _ _ _ _ _ _ H1 H2 _ _ _ _ H) as (G & _). destruct (reached_watched _ _ _ _ _ _ _ _ H1 H2 _ _ H) as ((_ & W2) & _).
  destruct (g_stale _ _ _ _ _ _ _ _ _ G) as [S1 S2]. destruct (W2 fd e Hc) as (x & X1 & X2 & X3). exists x. split; [exact X1|].
  split; [destruct X2 as [->| ->]; reflexivity|]. split; [intros K; now rewrite (X3 K)|]. intros Hl. rewrite (S2 Hl), X1. eexists. split; [reflexivity|].
  split; [destruct X2 as [->| ->]; reflexivity|]. intros K. now rewrite (X3 K).
Qed.
Print Assumptions C52_write_interest.
(** Once it could be written and nothing is left, there is no interest in writing. *)
Theorem C52_no_longer : forall linux listener W app cs T k0 w0 pending s fd m a s' e,
  setting listener k0 -> reached linux listener W app cs T k0 w0 true enough_resources ((fd, (m, a)) :: pending) s -> fd <> listener ->
  has_event m PWrite = true -> has_event m PError = false -> has_event m PHangup = false ->
  handle_connection_events linux W app cs T fd m a s = Ret s' -> conn_at W s' fd e -> e_result e = Some WantRead ->
  mget fd (p_fds (sv_poller W s')) = Some PRead /\ (linux = true -> mget fd (k_watch (sv_kernel W s')) = Some EPOLLIN).
Proof.
  intros linux listener W app cs T k0 w0 pending s fd m a s' e [H1 H2] H Hf M1 M2 M3 E Hc Hr.
  destruct (reached_good _ _ _ _ _ _ _ _ H1 H2 _ _ _ _ H) as (G & _). destruct (reached_watched _ _ _ _ _ _ _ _ H1 H2 _ _ H) as (_ & P).
  apply Forall_cons_iff in P as [P _]. cbn [snd] in P.
  pose proof (reached_event _ _ _ _ _ _ _ _ _ _ _ _ _ _ _ _ H Hf E) as H'. destruct (reached_good _ _ _ _ _ _ _ _ H1 H2 _ _ _ _ H') as (G' & _).
  assert (K : mget fd (p_fds (sv_poller W s')) = Some PRead).
  { unfold handle_connection_events in E. destruct (mget fd (sv_conns W s)) as [e0|] eqn:Ec; [|injection E as <-; unfold conn_at in Hc; congruence].
    rewrite M1, M2, M3 in E. rewrite andb_false_r in E. cbn [orb] in E. rewrite !(ctl_plenty _ _ P) in E.
    pose proof (set_watched _ _ _ _ _ _ _ _ H2 fd PRead s G (or_intror (ex_intro _ _ Ec))) as D. set (s1 := set linux W true fd PRead s) in *.
    destruct (process W app cs T (ar_scripts a) (e_conn e0) (sv_world W s1)) as [[[[r c] tr] w]| | |] eqn:Ep; try discriminate E. cbn [obind] in E.
    destruct r; injection E as <-.
    - cbn [set_world set_conns sv_poller]. rewrite (to_fds _ _ _ _ _ _ D), mget_mput, Z.eqb_refl. reflexivity.
    - unfold conn_at in Hc. cbn [set set_poller set_world set_conns sv_conns] in Hc. rewrite mget_mput, Z.eqb_refl in Hc. injection Hc as <-. discriminate.
    - exfalso. unfold conn_at, erase in Hc. cbn [remove set_poller set_world set_conns sv_conns] in Hc. rewrite mget_mput, Z.eqb_refl in Hc.
      cbn [sv_conns] in Hc. rewrite mget_mdel, Z.eqb_refl in Hc. discriminate. }
  split; [exact K|]. intros Hl. destruct (g_stale _ _ _ _ _ _ _ _ _ G') as [_ S2]. now rewrite (S2 Hl), K.
Qed.
Print Assumptions C52_no_longer.
(** The first write blocks, the second does not. *)
Definition blocking (fd : Z) (o : bytes) : Z * (Z * surroundings) :=
  (fd, (1, quiet AcceptAgain (Scripts [(0, HsOk)] [octets o] [(0, WrErr WantReadOrWrite)]))).
Definition writable (fd : Z) : Z * (Z * surroundings) := (fd, (4, quiet AcceptAgain (deliver [block_read]))).
Example C52_case : forall linux T,
  (exists s, reached linux 3 unit hi true T k_std tt true enough_resources [] s /\
     map (fun e => e_result (snd e)) (sv_conns unit s) = [Some WantWrite] /\ p_fds (sv_poller unit s) = [(4, 3); (3, 1)]) /\
  (exists s, reached linux 3 unit hi true T k_std tt true enough_resources [] s /\
     map (fun e => e_result (snd e)) (sv_conns unit s) = [Some WantRead] /\ p_fds (sv_poller unit s) = [(4, 1); (3, 1)]).
Proof.
  intros linux T. split.
  - apply (by_reached [at_time 0 [arrives 4]; at_time 0 [blocking 4 (w_hello ++ w_get)]]);
      [destruct linux; vm_compute; repeat split; reflexivity|apply iterations_ok; vm_compute; reflexivity].
  - apply (by_reached [at_time 0 [arrives 4]; at_time 0 [blocking 4 (w_hello ++ w_get)]; at_time 0 [writable 4]]);
      [destruct linux; vm_compute; repeat split; reflexivity|apply iterations_ok; vm_compute; reflexivity].
Qed.

(** C53: false.  Whatever the server has been doing, the next accept that fails, whose
    socket cannot be made non-blocking, or for which there is no transport, ends it. *)
Theorem C53_accept_fails_refuted : forall linux listener W app cs T k0 w0 s it m a,
  setting listener k0 -> reached linux listener W app cs T k0 w0 true enough_resources [] s ->
  it_wait it = WaitEvents [(listener, (m, a))] ->
  ar_accept a = AcceptFails \/
  (exists fd nonblocking, ar_accept a = AcceptFd fd nonblocking /\ 0 <= fd /\ mget fd (k_open (sv_kernel W s)) = None /\
     (nonblocking = false \/ ar_transport a = false /\ lenZ (sv_conns W s) < 128)) ->
  iterate linux listener W app cs T it s = Throw.
Proof.
  intros linux listener W app cs T k0 w0 s it m a [H1 H2] H Hw Ha. unfold iterate.
  destruct (reap_less linux listener W app w0 (it_clock it) (sv_conns W s) s) as [R1 R2].
  apply (reached_reap _ _ _ _ _ _ _ _ _ _ (it_clock it)) in H. set (s1 := reap_idle_connections linux W (it_clock it) s) in *.
  destruct (reached_good _ _ _ _ _ _ _ _ H1 H2 _ _ _ _ H) as (G & _). destruct (reached_watched _ _ _ _ _ _ _ _ H1 H2 _ _ H) as ((W1 & _) & _).
  destruct (g_stale _ _ _ _ _ _ _ _ _ G) as [_ S2]. destruct (g_limit _ _ _ _ _ _ _ _ _ G) as (_ & _ & L).
  assert (K : k_wait linux (sv_poller W s1) (sv_kernel W s1) [(listener, (m, a))] = [(listener, (m, a))]).
  { unfold k_wait. destruct linux; cbn [filter fst]; unfold mhas; [rewrite (S2 eq_refl)|]; rewrite W1; cbn [option_map distinct existsb]; [|reflexivity].
    apply firstn_all2. cbn [length]. destruct L as [<-|[<-|[<-|[]]]]; lia. }
  assert (Q : forall p, handle_incoming_connection linux W a (set_poller W (p, sv_kernel W s1) s1) = Throw).
  { intros p. destruct Ha as [Ha|(fd & nb & Ha & Hf & Ho & Hn)]; [exact (incoming_fails linux W a _ Ha)|].
    apply (incoming_not_set_up linux W app w0 a _ fd nb Ha Hf); cbn [set_poller sv_kernel sv_conns]; [exact (R1 _ Ho)|].
    destruct Hn as [Hn|[Hn Hl]]; [auto|right]. split; [exact Hn|]. unfold s1, reap_idle_connections. lia. }
  rewrite Hw. unfold poller_poll. rewrite K. cbn [map handle_events fst snd]. rewrite Z.eqb_refl, Q. reflexivity.
Qed.
Print Assumptions C53_accept_fails_refuted.
(** What is true: as long as accept does not fail and new sockets can be set up, the loop
    throws nothing, and every iteration ends; processing a connection may be undefined
    (C72). *)
Definition accept_succeeds (listener : Z) (it : iteration) : Prop :=
  match it_wait it with
  | WaitEvents evs => Forall (fun x => fst x = listener ->
      ar_transport (snd (snd x)) = true /\
      match ar_accept (snd (snd x)) with AcceptFd _ nonblocking => nonblocking = true | AcceptAgain => True | AcceptFails => False end) evs
  | _ => True
  end.
Theorem C53_survives_partial : forall linux listener W app cs T k0 w0 ok stopped its,
  huffman_tree = Ret T -> setting listener k0 -> Forall iteration_ok its -> Forall (accept_succeeds listener) its ->
  (exists b s, start linux listener W app cs T true ok stopped k0 w0 its = Ret (b, s)) \/
  start linux listener W app cs T true ok stopped k0 w0 its = Undef.
Proof.
  intros linux listener W app cs T k0 w0 ok stopped its HT [H1 H2] Ho Ha. unfold start. cbn [negb].
  pose proof (reached_start linux listener W app cs T k0 w0 ok (accept_succeeds listener) stopped) as H.
  set (s := set linux W ok listener PRead _) in *. clearbody s. revert s H. induction its as [|it its IH]; intros s H; cbn [loop]; (destruct (sv_stop W s); [left; eauto|]); [left; eauto|].
  apply Forall_cons_iff in Ho as [Ho Ho']. apply Forall_cons_iff in Ha as [Ha Ha'].
  destruct (reached_good _ _ _ _ _ _ _ _ H1 H2 _ _ _ _ H) as (G & N & _).
  assert (K : (exists s', iterate linux listener W app cs T it s = Ret s') \/ iterate linux listener W app cs T it s = Undef).
  { rewrite iterate_batch. destruct (batch_spec linux listener W app cs T k0 w0 H2 it s G N) as (B1 & B2 & _ & _ & B3).
    assert (B4 : Forall (fun x => fst x = listener -> accepts (snd (snd x))) (fst (batch linux W it s))).
    { unfold batch. destruct (reap_all _ _ _ _ _ _ _ _ H2 (it_clock it) s G N) as (R1 & _). set (s1 := reap_idle_connections linux W (it_clock it) s) in *.
      destruct (poller_poll linux (it_wait it) (sv_poller W s1) (sv_kernel W s1)) as [[evs|e] p] eqn:Ep; [|constructor]. cbn [fst].
      destruct (poll_spec _ _ _ _ _ _ _ _ _ _ _ _ R1 Ep) as (_ & _ & P). destruct (P evs eq_refl) as (_ & _ & Q).
      apply Forall_forall. intros [fd [m a]] X. destruct (Q _ _ _ X) as (raw & m' & Er & Kr). unfold accept_succeeds in Ha. rewrite Er in Ha. rewrite Forall_forall in Ha.
      exact (Ha _ Kr). }
    destruct (batch_returns _ _ _ _ _ _ _ _ (is_tree_intro T HT) H2 _ _ B1 B2 (B3 Ho) B4) as [[s' E]|E]; rewrite E; cbn [obind]; eauto. }
  destruct K as [[s' K]|K]; rewrite K; cbn [obind]; [|auto]. apply IH; [exact Ho'|exact Ha'|].
  exact (iterate_reached _ _ _ _ _ _ _ _ _ _ _ _ _ H Ho Ha K).
Qed.
Print Assumptions C53_survives_partial.
Example C53_case : forall linux T, exists b s,
  start linux 3 unit hi true T true true None k_std tt (some_run ++ [at_time 0 [(3, (1, quiet AcceptAgain nothing))]]) = Ret (b, s) /\
  map fst (sv_conns unit s) = [5; 4] /\
  start linux 3 unit hi true T true true None k_std tt (some_run ++ [at_time 0 [(3, (1, quiet AcceptFails nothing))]]) = Throw /\
  mget 6 (k_open (sv_kernel unit s)) = None.
Proof.
  intros linux T. destruct (by_start (linux := linux) (W := unit) (app := hi) (cs := true) (T := T) (its := some_run ++ [at_time 0 [(3, (1, quiet AcceptAgain nothing))]]) (w0 := tt)
    (fun b s => map fst (sv_conns unit s) = [5; 4] /\ mget 6 (k_open (sv_kernel unit s)) = None)) as (b & s & E & K & K'); [destruct linux; vm_compute; split; reflexivity|].
  exists b, s. split; [exact E|]. split; [exact K|]. split; [destruct linux; vm_compute; reflexivity|exact K'].
Qed.

(** C54.  [n] stands for a descriptor as obtained from the system (descriptors are reused,
    the numbers of objects are not). *)
Definition owns (s : handles) (h : Z) (n : nat) : Prop :=
  exists fd, mget h (hd_fds s) = Some fd /\ 0 <= fd /\ mget fd (k_open (hd_kernel s)) = Some n.
Theorem C54_closed_once : forall k0 s, in_order k0 -> history k0 s ->
  NoDup (k_closed (hd_kernel s)) /\ ~ In None (k_closed (hd_kernel s)) /\
  (forall n, In (Some n) (k_closed (hd_kernel s)) -> (k_objects k0 <= n)%nat /\ forall h, ~ owns s h n) /\
  (forall n h h', owns s h n -> owns s h' n -> h = h') /\
  (forall n, (k_objects k0 <= n < k_objects (hd_kernel s))%nat -> In (Some n) (k_closed (hd_kernel s)) \/ exists h, owns s h n) /\
  (forall fd n, mget fd (k_open k0) = Some n -> mget fd (k_open (hd_kernel s)) = Some n).
Proof.
  intros k0 s Hk H. apply (history_sound k0 Hk) in H as [H1 Hb H2 H3 H4 H5 H6 H7 [H8 H9]].
  split; [exact H8|]. split; [exact H9|]. split; [|split; [|split; [|exact Hb]]].
  - intros n K. split; [apply (H6 n); auto|]. intros h (fd & _ & _ & Q). exact (H7 n K fd Q).
  - intros n h h' (fd & Q1 & Q2 & Q3) (fd' & R1 & R2 & R3). pose proof (H4 fd fd' n Q3 R3) as <-. apply (H1 h h' fd); split; assumption.
  - intros n K. apply H6 in K as [K|(K & fd & Q)]; [auto|right]. pose proof Q as Q'. apply H2 in Q as [Q|(_ & h & Q1 & Q2)].
    + apply (proj1 Hk) in Q. lia.
    + exists h, fd. auto.
Qed.
Print Assumptions C54_closed_once.
(** When all handles are gone, everything obtained has been closed. *)
Theorem C54_all_closed : forall k0 s, in_order k0 -> history k0 s -> hd_fds s = [] ->
  (forall n, (k_objects k0 <= n < k_objects (hd_kernel s))%nat <-> In (Some n) (k_closed (hd_kernel s))) /\
  forall fd, mget fd (k_open (hd_kernel s)) = mget fd (k_open k0).
Proof.
  intros k0 s Hk H E. apply (history_sound k0 Hk) in H as [H1 Hb H2 H3 H4 H5 H6 H7 [H8 H9]].
  assert (N : forall h fd, ~ owner s h fd) by (intros h fd [K _]; rewrite E in K; discriminate). split.
  - intros n. rewrite (H6 n). split; [|auto]. intros [K|(K & fd & Q)]; [exact K|]. apply H2 in Q as [Q|(_ & h & Q)]; [|now apply N in Q].
    apply (proj1 Hk) in Q. lia.
  - intros fd. destruct (mget fd (k_open (hd_kernel s))) as [n|] eqn:K.
    + apply H2 in K as [K|(_ & h & K)]; [now symmetry|now apply N in K].
    + destruct (mget fd (k_open k0)) as [n|] eqn:K'; [|reflexivity]. apply Hb in K'. congruence.
Qed.
Print Assumptions C54_all_closed.
(** Two descriptors: the second handle is assigned to the first, then both are destroyed. *)
Example C54_case : exists s, history k_std s /\ hd_fds s = [] /\ k_closed (hd_kernel s) = [Some 3%nat; Some 4%nat].
Proof.
  exists (sfd_destroy 11 (sfd_destroy 10 (sfd_assign 10 11 (sfd_obtain 11 4 (sfd_obtain 10 3 (Handles [] k_std)))))).
  split; [|vm_compute; auto].
  apply hist_destroy; [apply hist_destroy; [apply hist_assign; [apply hist_obtain; [apply hist_obtain; [apply hist_start|..]|..]|..]|]|]; vm_compute; congruence.
Qed.

(** C76.  Sockets accepted are numbered after the listener. *)
Theorem C76_sockets : forall linux listener W app cs T k0 w0 ok A pending s,
  setting listener k0 -> reached linux listener W app cs T k0 w0 ok A pending s ->
  let closed n := In (Some n) (k_closed (sv_kernel W s)) in
  let held n fd := exists e, conn_at W s fd e /\ e_socket e = n in
  (forall n, (k_objects k0 < n < k_objects (sv_kernel W s))%nat <-> closed n \/ exists fd, held n fd) /\
  (forall n fd, held n fd -> ~ closed n /\ mget fd (k_open (sv_kernel W s)) = Some n /\ forall fd', held n fd' -> fd' = fd) /\
  NoDup (k_closed (sv_kernel W s)) /\ ~ In None (k_closed (sv_kernel W s)) /\
  (forall e, In e (sv_gone W s) -> closed (e_socket e)) /\
  (forall fd n, mget fd (k_open k0) = Some n -> mget fd (k_open (sv_kernel W s)) = Some n) /\
  mget listener (k_open (sv_kernel W s)) = Some (k_objects k0) /\
  (forall fd n, mget fd (k_open (sv_kernel W s)) = Some n -> mget fd (k_open k0) = Some n \/ fd = listener \/ held n fd).
Proof.
  intros linux listener W app cs T k0 w0 ok A pending s [H1 H2] H closed held. subst closed held. cbv beta.
  destruct (reached_good _ _ _ _ _ _ _ _ H1 H2 _ _ _ _ H) as (G & _).
  destruct (g_sock _ _ _ _ _ _ _ _ _ G) as (S1 & S2 & S3 & S4 & S5 & S6). destruct (g_desc _ _ _ _ _ _ _ _ _ G) as [D1 D2].
  split; [|split; [|split; [exact S4|split; [exact S5|split; [|split; [|split]]]]]].
  - intros n. unfold accepted in S1. rewrite (S1 n). split; [intros [(fd & e & K)|K]; [right; exists fd; exists e; exact K|auto]|].
    intros [K|(fd & e & K)]; [auto|left; exists fd, e; exact K].
  - intros n fd (e & K & <-). split; [exact (S2 fd e K)|]. split; [exact (good_open _ _ _ _ _ _ _ _ H2 _ _ _ G K)|]. intros fd' (e' & K' & E). exact (S3 fd' e' fd e K' K E).
  - rewrite Forall_forall in S6. exact S6.
  - intros fd n K. apply D2. auto.
  - apply D2. auto.
  - intros fd n K. apply D2 in K as [K|[[K _]|K]]; auto.
Qed.
Print Assumptions C76_sockets.
Example C76_case : forall linux T, exists s, reached linux 3 unit hi true T k_std tt true enough_resources [] s /\
  map (fun e => (fst e, e_socket (snd e))) (sv_conns unit s) = [(5, 6%nat); (4, 4%nat)] /\ map e_socket (sv_gone unit s) = [5%nat] /\
  k_closed (sv_kernel unit s) = [Some 5%nat].
Proof. intros [] T; run some_run. Qed.

(** C69.  What the system calls and the TLS library promise: read(2) gives -1 or at most
    the size of the buffer, SSL_read a positive number of octets or 0 or less. *)
Definition read_contract (size : Z) (r : call_result) : Prop :=
  match r with Got o => all_bytes o /\ lenZ o <= size | Failed ret _ => ret = -1 end.
Definition ssl_read_contract (size : Z) (r : call_result) : Prop :=
  match r with Got o => all_bytes o /\ 1 <= lenZ o <= size | Failed ret _ => ret <= 0 end.
(** The numbers are those of Linux (EAGAIN) and of OpenSSL (SSL_ERROR_WANT_READ, _WANT_WRITE; below
    6: SSL_ERROR_ZERO_RETURN, 1: SSL_ERROR_SSL). *)
Definition tcp_blocks (e : Z) : Prop := e = 11.
Definition tls_blocks (e : Z) : Prop := e = 2 \/ e = 3.
Theorem C69_tcp_read : forall size r, read_contract size r ->
  (tcp_read r = RdErr ConnectionClosed <-> r = Got []) /\
  (tcp_read r = RdErr WantReadOrWrite <-> exists e, r = Failed (-1) e /\ tcp_blocks e) /\
  (forall o, tcp_read r = RdData o <-> r = Got o /\ o <> []) /\
  (tcp_read r = RdErr OtherError <-> exists e, r = Failed (-1) e /\ ~ tcp_blocks e).
Proof.
  intros size r H. destruct r as [o|ret e]; cbn [read_contract] in H.
  - unfold tcp_read. cbn [returned]. destruct o as [|x o].
    + cbn. split; [easy|]. split; [split; [discriminate|intros (e & K & _); discriminate]|]. split; [intros o; split; [discriminate|intros [[= <-] K]; easy]|split; [discriminate|intros (e & K & _); discriminate]].
    + unfold lenZ. cbn [length]. destruct (Z.ltb_spec (Z.of_nat (S (length o))) 0); [lia|]. destruct (Z.eqb_spec (Z.of_nat (S (length o))) 0); [lia|].
      split; [easy|]. split; [split; [discriminate|intros (e & K & _); discriminate]|]. split; [intros o'; split; [intros [= <-]; easy|intros [[= <-] _]; reflexivity]|split; [discriminate|intros (e & K & _); discriminate]].
  - subst ret. unfold tcp_read, tcp_blocks, EAGAIN, EWOULDBLOCK. cbn [returned Z.ltb Z.compare]. destruct (Z.eqb_spec e 11) as [->|N]; cbn [orb].
    + split; [easy|]. split; [split; [eauto|reflexivity]|]. split; [intros o; split; [discriminate|intros [K _]; discriminate]|]. split; [discriminate|]. intros (e & [= <-] & K). tauto.
    + split; [easy|]. split; [split; [discriminate|]|]. { intros (e' & [= <-] & K); easy. }
      split; [intros o; split; [discriminate|intros [K _]; discriminate]|]. split; [|reflexivity]. intros _. exists e. split; [reflexivity|]. tauto.
Qed.
Print Assumptions C69_tcp_read.
Theorem C69_tls_read : forall size r, ssl_read_contract size r ->
  (tls_read r = RdErr ConnectionClosed <-> exists ret, r = Failed ret 6) /\
  (tls_read r = RdErr WantReadOrWrite <-> exists ret e, r = Failed ret e /\ tls_blocks e) /\
  (forall o, tls_read r = RdData o <-> r = Got o) /\
  (tls_read r = RdErr TransportProtocolError <-> exists ret, r = Failed ret 1) /\
  (tls_read r = RdErr OtherError <-> exists ret e, r = Failed ret e /\ ~ tls_blocks e /\ e <> 6 /\ e <> 1).
Proof.
  intros size r H. destruct r as [o|ret e]; cbn [ssl_read_contract] in H.
  - unfold tls_read. cbn [returned]. destruct (Z.leb_spec (lenZ o) 0); [lia|].
    split; [split; [discriminate|intros [ret K]; discriminate]|]. split; [split; [discriminate|intros (ret & e & K & _); discriminate]|].
    split; [intros o'; split; [intros [= <-]; reflexivity|intros [= <-]; reflexivity]|]. split; [split; [discriminate|intros [ret K]; discriminate]|]. split; [discriminate|intros (ret & e & K & _); discriminate].
  - unfold tls_read, tls_blocks. cbn [returned]. destruct (Z.leb_spec ret 0); [|lia].
    unfold SSL_ERROR_WANT_READ, SSL_ERROR_WANT_WRITE, SSL_ERROR_ZERO_RETURN, SSL_ERROR_SSL.
    assert (X : forall o, Failed ret e <> Got o) by discriminate.
    destruct (Z.eqb_spec e 2) as [->|N2]; [|destruct (Z.eqb_spec e 3) as [->|N3]; [|destruct (Z.eqb_spec e 6) as [->|N6]; [|destruct (Z.eqb_spec e 1) as [->|N1]]]];
      (split; [split; [intros K; try discriminate K; eauto|intros [ret' K]; try reflexivity; try (injection K; intros; lia)]|]);
      (split; [split; [intros K; try discriminate K; eauto 6|intros (ret' & e' & K & K'); try reflexivity; injection K; intros; lia]|]);
      (split; [intros o; split; [discriminate|intros K; discriminate K]|]);
      (split; [split; [intros K; try discriminate K; eauto|intros [ret' K]; try reflexivity; exfalso; injection K; intros; lia]|]);
      (split; [intros K; try discriminate K; eexists _, _; (split; [reflexivity|lia])|intros (ret' & e' & K & K1 & K2); try reflexivity; exfalso; injection K; intros; lia]).
Qed.
Print Assumptions C69_tls_read.
(** So transports do what the theorems about connections assume of them. *)
Theorem C69_scripts : forall rs hs wr,
  (Forall (fun x => read_contract TEMP_READ_BUFFER_SIZE (snd x)) rs -> scripts_ok (Scripts hs (map (fun x => (fst x, tcp_read (snd x))) rs) wr)) /\
  (Forall (fun x => ssl_read_contract TEMP_READ_BUFFER_SIZE (snd x)) rs -> scripts_ok (Scripts hs (map (fun x => (fst x, tls_read (snd x))) rs) wr)).
Proof.
  intros rs hs wr. split; intros H; unfold scripts_ok; cbn [sc_rd]; apply Forall_map; (eapply Forall_impl; [|exact H]); intros [t r] K; cbn [fst snd] in *.
  - destruct (tcp_read r) as [o|e] eqn:E; [|exact I]. apply (C69_tcp_read _ _ K) in E as [-> N]. destruct K as [K1 K2]. split; [exact K1|]. destruct o; [easy|]. unfold lenZ in *. cbn [length] in *. lia.
  - destruct (tls_read r) as [o|e] eqn:E; [|exact I]. apply (C69_tls_read _ _ K) in E as ->. exact K.
Qed.
Print Assumptions C69_scripts.
(** write(2) gives -1 or at most the number of octets passed. *)
Theorem C69_tcp_write : forall size ret e, 0 < size -> ret = -1 \/ 0 <= ret <= size ->
  (tcp_write size ret e = WrOk ret <-> ret = size) /\
  (forall k, tcp_write size ret e = WrPartial k <-> ret = k /\ 0 <= k < size) /\
  (tcp_write size ret e = WrErr WantReadOrWrite <-> ret = -1 /\ tcp_blocks e) /\
  (tcp_write size ret e = WrErr WriteError <-> ret = -1 /\ ~ tcp_blocks e).
Proof.
  intros size ret e Hs H. unfold tcp_write, tcp_blocks, EAGAIN, EWOULDBLOCK.
  destruct (Z.ltb_spec ret 0); [destruct (Z.eqb_spec e 11); cbn [orb]|destruct (Z.eqb_spec ret size); cbn [negb]];
    (split; [split; [intros K; try discriminate K; lia|intros K; try reflexivity; lia]|]);
    (split; [intros k; split; [intros K; try discriminate K; injection K as <-; lia|intros [<- K]; try reflexivity; lia]|]);
    (split; (split; [intros K; try discriminate K; lia|intros K; try reflexivity; lia])).
Qed.
Print Assumptions C69_tcp_write.
(** SSL_write: 0 or less is failure.  The code takes 0 for a number of octets. *)
Definition tls_write_faithful (size ret e : Z) : Prop :=
  (tls_write size ret e = WrOk ret <-> ret = size) /\
  (forall k, tls_write size ret e = WrPartial k <-> ret = k /\ 0 < k < size) /\
  (tls_write size ret e = WrErr WantReadOrWrite <-> ret <= 0 /\ tls_blocks e) /\
  (tls_write size ret e = WrErr ConnectionClosed <-> ret <= 0 /\ e = 6) /\
  (tls_write size ret e = WrErr TransportProtocolError <-> ret <= 0 /\ ~ tls_blocks e /\ e <> 6).
Theorem C69_tls_write_partial : forall size ret e, 0 < size < 2147483648 -> ret <= size -> ret <> 0 -> tls_write_faithful size ret e.
Proof.
  intros size ret e Hs H N. unfold tls_write_faithful, tls_write. rewrite to_int_small by lia. unfold tls_blocks, SSL_ERROR_WANT_READ, SSL_ERROR_WANT_WRITE, SSL_ERROR_ZERO_RETURN, SSL_ERROR_SSL.
  destruct (Z.ltb_spec ret 0).
  - destruct (Z.eqb_spec e 2), (Z.eqb_spec e 3), (Z.eqb_spec e 6), (Z.eqb_spec e 1); (split; [|split; [intros k|split; [|split]]]);
      (split; [intros K; try discriminate K; lia|intros K; try reflexivity; lia]).
  - destruct (Z.eqb_spec ret size); cbn [negb]; (split; [|split; [intros k|split; [|split]]]);
      (split; [intros K; try discriminate K; try injection K as <-; lia|intros K; try reflexivity; try (f_equal; lia); lia]).
Qed.
Print Assumptions C69_tls_write_partial.
Theorem C69_tls_write_refuted : ~ forall size ret e, 0 < size < 2147483648 -> ret <= size -> tls_write_faithful size ret e.
Proof.
  intros H. destruct (H 9 0 3) as (_ & _ & (_ & K) & _); [lia|lia|]. assert (X : tls_write 9 0 3 = WrErr WantReadOrWrite).
  { apply K. split; [lia|now right]. }
  discriminate.
Qed.
Print Assumptions C69_tls_write_refuted.
Theorem C69_tls_handshake : forall result e eof,
  (tls_handshake result e eof = HsOk <-> result = 1) /\
  (tls_handshake result e eof = HsErr WantReadOrWrite <-> result <> 1 /\ tls_blocks e) /\
  (tls_handshake result e eof = HsErr ConnectionClosed <-> result <> 1 /\ (e = 6 \/ e = 1 /\ eof = true)) /\
  (tls_handshake result e eof = HsErr TransportProtocolError <->
     result <> 1 /\ ~ tls_blocks e /\ e <> 6 /\ ~ (e = 1 /\ eof = true)).
Proof.
  intros result e eof. unfold tls_handshake, tls_blocks, SSL_ERROR_WANT_READ, SSL_ERROR_WANT_WRITE, SSL_ERROR_ZERO_RETURN, SSL_ERROR_SSL.
  destruct (Z.eqb_spec result 1) as [->|N].
  - repeat split; try discriminate; intros [K _]; easy.
  - destruct (Z.eqb_spec e 6) as [->|N6]; [|destruct (Z.eqb_spec e 2) as [->|N2]; [|destruct (Z.eqb_spec e 3) as [->|N3]; [|destruct (Z.eqb_spec e 1) as [->|N1], eof]]];
      cbn [orb andb]; (split; [split; [intros K; discriminate K|intros K; easy]|]);
      (split; [split; [intros K; try discriminate K; lia|intros K; try reflexivity; lia]|]);
      (split; (split; [intros K; try discriminate K; repeat split; try easy; try lia; try (intros [K' K'']; easy); auto|
                       intros K; try reflexivity; exfalso; intuition (try lia; try congruence)])).
Qed.
Print Assumptions C69_tls_handshake.
Example C69_case : tcp_read (Got [1; 2]) = RdData [1; 2] /\ tcp_read (Failed (-1) 4) = RdErr OtherError /\
  tcp_read (Got []) = RdErr ConnectionClosed /\ tls_read (Failed (-1) 3) = RdErr WantReadOrWrite /\
  tcp_write 10 4 0 = WrPartial 4.
Proof. repeat split. Qed.

(** C70.  Bits of interest: 0 read, 1 write, 2 hangup, 3 error; of the operating system:
    0 readable, 2 writable, 3 error, 4 hangup. *)
Theorem C70_to_system : forall m i, 0 <= i ->
  Z.testbit (to_epoll_events m) i = ((i =? 0) && Z.testbit m 0 || (i =? 2) && Z.testbit m 1) /\
  Z.testbit (event_from_poll_event m) i = ((i =? 0) && Z.testbit m 0 || (i =? 2) && Z.testbit m 1).
Proof.
  intros m i Hi. assert (K : Z.testbit (to_epoll_events m) i = ((i =? 0) && Z.testbit m 0 || (i =? 2) && Z.testbit m 1)); [|split; exact K].
  unfold to_epoll_events, has_event, PRead, PWrite, EPOLLIN, EPOLLOUT. rewrite bit0, bit1.
  destruct (Z.eqb_spec i 0) as [->|N0]; [now destruct (Z.testbit m 0), (Z.testbit m 1)|].
  destruct (Z.eqb_spec i 2) as [->|N2]; [now destruct (Z.testbit m 0), (Z.testbit m 1)|].
  assert (X1 : Z.testbit 1 i = false) by (apply (Z.pow2_bits_false 0); congruence).
  assert (X4 : Z.testbit 4 i = false) by (apply (Z.pow2_bits_false 2); congruence).
  destruct (Z.testbit m 0), (Z.testbit m 1); cbn [andb orb]; rewrite ?Z.lor_spec, ?X1, ?X4, ?Z.bits_0; reflexivity.
Qed.
Print Assumptions C70_to_system.
Theorem C70_from_system : forall m i, 0 <= i ->
  Z.testbit (from_epoll_events m) i =
    ((i =? 0) && Z.testbit m 0 || (i =? 1) && Z.testbit m 2 || (i =? 2) && Z.testbit m 4 || (i =? 3) && Z.testbit m 3) /\
  event_to_poll_event m = from_epoll_events m.
Proof.
  intros m i Hi. split; [|reflexivity]. unfold from_epoll_events, PNone, PRead, PWrite, PHangup, PError, EPOLLIN, EPOLLOUT, EPOLLHUP, EPOLLERR. rewrite bit0, bit2, bit3, bit4.
  assert (X : i = 0 \/ i = 1 \/ i = 2 \/ i = 3 \/ (i <> 0 /\ i <> 1 /\ i <> 2 /\ i <> 3)) by lia.
  destruct X as [->|[->|[->|[->|(N0 & N1 & N2 & N3)]]]]; try (now destruct (Z.testbit m 0), (Z.testbit m 2), (Z.testbit m 4), (Z.testbit m 3)).
  assert (X1 : Z.testbit 1 i = false) by (apply (Z.pow2_bits_false 0); congruence).
  assert (X2 : Z.testbit 2 i = false) by (apply (Z.pow2_bits_false 1); congruence).
  assert (X4 : Z.testbit 4 i = false) by (apply (Z.pow2_bits_false 2); congruence).
  assert (X8 : Z.testbit 8 i = false) by (apply (Z.pow2_bits_false 3); congruence).
  apply Z.eqb_neq in N0, N1, N2, N3. rewrite N0, N1, N2, N3. cbn [andb orb].
  destruct (Z.testbit m 0), (Z.testbit m 2), (Z.testbit m 4), (Z.testbit m 3); rewrite ?Z.lor_spec, ?X1, ?X2, ?X4, ?X8, ?Z.bits_0; reflexivity.
Qed.
Print Assumptions C70_from_system.
(** There and back: read and write interest, and nothing else. *)
Theorem C70_round_trip : forall m,
  from_epoll_events (to_epoll_events m) = Z.land m 3 /\ event_to_poll_event (event_from_poll_event m) = Z.land m 3.
Proof.
  intros m. assert (K : from_epoll_events (to_epoll_events m) = Z.land m 3); [|split; exact K].
  apply Z.bits_inj'. intros i Hi. rewrite (proj1 (C70_from_system _ i Hi)), Z.land_spec. rewrite (proj1 (C70_to_system m 0 ltac:(lia))), (proj1 (C70_to_system m 2 ltac:(lia))),
    (proj1 (C70_to_system m 3 ltac:(lia))), (proj1 (C70_to_system m 4 ltac:(lia))). cbn [Z.eqb Pos.eqb andb orb].
  assert (X : i = 0 \/ i = 1 \/ 2 <= i) by lia. destruct X as [->|[->|X]].
  - now destruct (Z.testbit m 0), (Z.testbit m 1).
  - now destruct (Z.testbit m 0), (Z.testbit m 1).
  - assert (X3 : Z.testbit 3 i = false) by (apply (Z.bits_above_log2 3 i); cbn; lia). rewrite X3, andb_false_r.
    destruct (Z.eqb_spec i 0), (Z.eqb_spec i 1); lia.
Qed.
Print Assumptions C70_round_trip.
Example C70_case : to_epoll_events (Z.lor PRead PWrite) = 5 /\ from_epoll_events 21 = Z.lor (Z.lor PRead PWrite) PHangup /\ from_epoll_events 8224 = PNone.
Proof. repeat split. Qed.
