(** C115: the console messages of the server loop.  What they say of connections and
    clients; what the poller complains of. *)
From Verif Require Import Base BaseLemmas Huffman Http Conn SpecConn ConnLemmas ConnBasic ConnTerm ConnWit Poller Server SpecServer ServerProofs
  ServerReach PropServer AccessLog SpecApp AppProofs FilesServe Messages ServerMessages SpecServerMessages ServerMessagesProofs.

(** With epoll, who follows the console knows how many connections there are: the totals
    shown are right, and so is the number at the end. *)
Theorem C115_counts : forall v port listener W app cs T k0 w0 made ok stopped its b s,
  setting listener k0 -> Forall iteration_ok its ->
  start true listener W app cs T made ok stopped k0 w0 its = Ret (b, s) ->
  let ms := start_messages v true listener W app cs T port made ok stopped k0 w0 its in
  totals 0 ms /\ counted 0 ms = lenZ (sv_conns W s).
Proof.
  intros v port listener W app cs T k0 w0 made ok stopped its b s [H1 H2] Hok E ms.
  destruct (start_right v true listener W app cs T k0 w0 H1 H2 port made ok stopped its b s Hok E) as [_ R2 R3 _ _]. auto.
Qed.
Print Assumptions C115_counts.

(** With poll this is so only if no client hangs up. *)
Theorem C115_counts_elsewhere_partial : forall v port linux listener W app cs T k0 w0 made ok stopped its b s,
  setting listener k0 -> Forall iteration_ok its ->
  start linux listener W app cs T made ok stopped k0 w0 its = Ret (b, s) ->
  lenZ (sv_conns W s) <= counted 0 (start_messages v linux listener W app cs T port made ok stopped k0 w0 its).
Proof.
  intros v port linux listener W app cs T k0 w0 made ok stopped its b s [H1 H2] Hok E.
  destruct (start_right v linux listener W app cs T k0 w0 H1 H2 port made ok stopped its b s Hok E) as [R1 _ _ _ _]. lia.
Qed.
Print Assumptions C115_counts_elsewhere_partial.

(** Each client accepted is told of once, in order and with its address, whether it is served or not. *)
Theorem C115_clients : forall v port linux listener W app cs T k0 w0 made ok stopped its b s,
  setting listener k0 -> Forall iteration_ok its ->
  start linux listener W app cs T made ok stopped k0 w0 its = Ret (b, s) ->
  let ms := start_messages v linux listener W app cs T port made ok stopped k0 w0 its in
  clients ms = Z.of_nat (k_objects (sv_kernel W s)) - Z.of_nat (k_objects k0) - 1 /\
  ((forall n, peer_ok (v_peer v n)) -> named (v_peer v) (S (k_objects k0)) ms).
Proof.
  intros v port linux listener W app cs T k0 w0 made ok stopped its b s [H1 H2] Hok E ms.
  destruct (start_right v linux listener W app cs T k0 w0 H1 H2 port made ok stopped its b s Hok E) as [_ _ _ R4 R5]. split; [unfold ms; lia|exact R5].
Qed.
Print Assumptions C115_clients.

(** The first line names the port; when the loop ends, the last one says why. *)
Theorem C115_first_last : forall v port linux listener W app cs T k0 w0 made ok stopped its b s,
  0 <= port -> start linux listener W app cs T made ok stopped k0 w0 its = Ret (b, s) ->
  let ms := start_messages v linux listener W app cs T port made ok stopped k0 w0 its in
  (exists n ms', decimal n port /\ ms = Msg LInfo (str "listening on port " ++ n) :: ms') /\
  (b = true -> exists ms' r, sv_stop W s = Some r /\ ms = ms' ++ [Msg LInfo
     match r with
     | StopOther => str "server shutting down (reason: other)"
     | StopSignal => str "server shutting down (reason: signal)"
     | StopStdOut => str "server shutting down (reason: stdout pipe broken)"
     | StopStdErr => str "server shutting down (reason: stderr pipe broken)"
     end]).
Proof.
  intros v port linux listener W app cs T k0 w0 made ok stopped its b s Hp E. unfold start, start_messages in *. destruct made; [|discriminate]. cbn [negb] in *. split.
  - exists (to_string port). eexists. split; [now apply to_string_spec|reflexivity].
  - intros ->. destruct (loop_last v linux listener W app cs T _ _ _ E) as (before & r & H1 & ->).
    exists ([info (str "listening on port " ++ to_string port)] ++
      set_messages v linux W ok listener PRead (Server W [] stopped new_poller (k_new listener k0) w0 []) ++ before), r. split; [exact H1|].
    rewrite <- !app_assoc. do 4 f_equal. now destruct r.
Qed.
Print Assumptions C115_first_last.

(** While the connections are looked through, those without success for five seconds are named, and no others. *)
Theorem C115_idle : forall v linux listener W app cs T k0 w0 ok A pending s clock n,
  setting listener k0 -> reached linux listener W app cs T k0 w0 ok A pending s ->
  (In (Msg LWarn (str "closing connection due to inactivity (fd: " ++ n ++ str ")")) (reap_messages v linux W clock (sv_conns W s) s) <->
   exists fd e, conn_at W s fd e /\ clock fd - last_success (e_born e) (e_trace e) > 5000000000 /\ decimal n fd).
Proof.
  intros v linux listener W app cs T k0 w0 ok A pending s clock n [H1 H2] R.
  destruct (reached_good _ _ _ _ _ _ _ _ H1 H2 _ _ _ _ R) as (G & _ & _). destruct (g_limit _ _ _ _ _ _ _ _ _ G) as (_ & M & _).
  rewrite (reap_lines v linux W clock (sv_conns W s) s n). split; intros (fd & e & C & X & Y); exists fd, e.
  - apply (mget_entry _ M) in C. split; [exact C|]. split.
    + exact (proj1 (timed_out_iff _ _ _ _ _ _ _ _ _ _ _ _ (clock fd) (proj1 (g_lives _ _ _ _ _ _ _ _ _ G) fd e C)) X).
    + rewrite Y. apply to_string_spec. now apply (g_desc _ _ _ _ _ _ _ _ _ G) in C.
  - split; [now apply (mget_entry _ M)|]. split.
    + exact (proj2 (timed_out_iff _ _ _ _ _ _ _ _ _ _ _ _ (clock fd) (proj1 (g_lives _ _ _ _ _ _ _ _ _ G) fd e C)) X).
    + apply (decimal_unique n (to_string fd) fd Y). apply to_string_spec. now apply (g_desc _ _ _ _ _ _ _ _ _ G) in C.
Qed.
Print Assumptions C115_idle.

(** Where epoll_ctl lacks no resources, its failures reported are those after hang-ups, *)
Theorem C115_complaints : forall v port linux listener W app cs T k0 w0 made stopped its,
  setting listener k0 -> Forall iteration_ok its -> Forall enough_resources its ->
  complains_of_hangups_only (start_messages v linux listener W app cs T port made true stopped k0 w0 its).
Proof. intros v port linux listener W app cs T k0 w0 made stopped its [H1 H2]. now apply start_only. Qed.
Print Assumptions C115_complaints.
(** and with epoll each hang-up (bit 3 or 2 of the poller's mask) is reported as such a failure:
    the descriptor is closed before it is taken off the interest list. *)
Theorem C115_silent_hangups_refuted : forall v listener W app cs T k0 w0 ok A fd m a pending s e,
  setting listener k0 -> reached true listener W app cs T k0 w0 ok A ((fd, (m, a)) :: pending) s ->
  conn_at W s fd e -> Z.testbit m 2 = true \/ Z.testbit m 3 = true ->
  exists n, decimal n fd /\ event_messages v true W app cs T fd m a s =
    [Msg LWarn (str "epoll_ctl: DEL failed (fd: " ++ n ++ str "): Bad file descriptor")].
Proof.
  intros v listener W app cs T k0 w0 ok A fd m a pending s e [H1 H2] R C Hm.
  destruct (reached_good _ _ _ _ _ _ _ _ H1 H2 _ _ _ _ R) as (G & _ & _). exists (to_string fd). split.
  { apply to_string_spec. now apply (g_desc _ _ _ _ _ _ _ _ _ G) in C. }
  unfold event_messages. pose proof C as C'. unfold conn_at in C'. rewrite C'.
  assert (B : has_event m PError || has_event m PHangup = true).
  { apply orb_true_iff. unfold has_event, PError, PHangup. rewrite !negb_true_iff, !Z.eqb_neq. destruct Hm as [Hm|Hm]; [right|left]; intros E.
    - assert (K : Z.testbit (Z.land m 4) 2 = true) by (rewrite Z.land_spec, Hm; reflexivity). rewrite E in K. discriminate.
    - assert (K : Z.testbit (Z.land m 8) 3 = true) by (rewrite Z.land_spec, Hm; reflexivity). rewrite E in K. discriminate. }
  rewrite B, (hangup_messages v true listener W app cs T k0 w0 H2 fd e s G C). reflexivity.
Qed.
Print Assumptions C115_silent_hangups_refuted.

Local Ltac ins := repeat match goal with K : In _ [] |- _ => destruct K | K : In _ (_ :: _) |- _ => destruct K as [K|K] end; try reflexivity; try discriminate.
(** Calls that fail are reported: those made for a new client, *)
Theorem C115_new_client_failures : forall v linux W a s fd,
  ar_accept a = AcceptFd fd true -> 0 <= fd -> mget fd (k_open (sv_kernel W s)) = None ->
  let n := k_objects (sv_kernel W s) in let ms := incoming_messages v linux W a s in
  (forall e, v_nodelay v n = Some e <-> In (Msg LWarn (str "failed to set TCP_NODELAY on client fd: " ++ e)) ms) /\
  (v_peer v n = PeerFails <-> exists e, In (Msg LErr (str "getpeername failed: " ++ e)) ms) /\
  (v_peer v n = PeerFails -> In (Msg LErr (str "getpeername failed: " ++ v_peer_error v n)) ms) /\
  (v_peer v n = PeerOther <-> exists e, In (Msg LErr (str "unknown ss_family: " ++ e)) ms) /\
  (v_peer v n = PeerOther -> 0 <= v_family v n -> exists e, decimal e (v_family v n) /\ In (Msg LErr (str "unknown ss_family: " ++ e)) ms).
Proof.
  intros v linux W a s fd Ha Hf Ho n ms.
  assert (E : exists rest, ms = accept_messages v n ++ ip_messages v n ++ rest /\
    forall m, In m rest -> begins (str "failed to set") (m_text m) = false /\ m_level m <> LErr).
  { unfold ms, incoming_messages, establish_messages, try_accept. rewrite Ha. assert (L : fd <? 0 = false) by now apply Z.ltb_ge. rewrite L.
    apply mhas_false in Ho. rewrite Ho. cbn [orb]. fold n. destruct (negb _); eexists; (split; [reflexivity|]).
    - intros m H. apply in_app_iff in H as [[<-|[]]|H]; [split; [reflexivity|discriminate]|]. destruct (ar_transport a); [|destruct H].
      apply in_app_iff in H as [[<-|[]]|H]; [split; [reflexivity|discriminate]|]. unfold set_messages in H. destruct linux; [|destruct H].
      destruct (fst _) in H; [destruct H|]. destruct H as [<-|[]]. split; [reflexivity|discriminate].
    - intros m [<-|[]]. split; [reflexivity|discriminate]. }
  destruct E as (rest & E & R). clearbody ms. subst ms.
  assert (R1 : forall e, ~ In (Msg LWarn (str "failed to set TCP_NODELAY on client fd: " ++ e)) rest) by (intros e K; apply R in K as [K _]; discriminate).
  assert (R2 : forall e, ~ In (Msg LErr e) rest) by (intros e K; apply R in K as [_ K]; now apply K).
  clear R. unfold accept_messages, ip_messages, err, warn. split; [|split; [|split; [|split]]].
  - intros e. split; [intros ->; now left|]. rewrite !in_app_iff. intros [K|[K|K]]; [| |now apply R1 in K].
    + destruct (v_nodelay v n) as [e'|]; [|destruct K]. destruct K as [K|[]]. apply (f_equal m_text) in K. cbn [m_text] in K. apply app_inv_head in K. now subst.
    + exfalso. destruct (v_peer v n); ins.
  - split; [intros ->; exists (v_peer_error v n); apply in_app_iff; right; now left|]. intros [e K]. rewrite !in_app_iff in K. destruct K as [K|[K|K]]; [|destruct (v_peer v n); ins|now apply R2 in K].
    exfalso. destruct (v_nodelay v n); ins.
  - intros ->. apply in_app_iff. right. now left.
  - split; [intros ->; exists (to_string (v_family v n)); apply in_app_iff; right; now left|]. intros [e K]. rewrite !in_app_iff in K. destruct K as [K|[K|K]]; [|destruct (v_peer v n); ins|now apply R2 in K].
    exfalso. destruct (v_nodelay v n); ins.
  - intros -> Hv. exists (to_string (v_family v n)). split; [now apply to_string_spec|]. apply in_app_iff. right. now left.
Qed.
Print Assumptions C115_new_client_failures.
(** a failing poll (a failing epoll_wait is not), *)
Theorem C115_poll_failures : forall v linux listener W app cs T k0 w0 ok A s it eintr,
  setting listener k0 -> reached linux listener W app cs T k0 w0 ok A [] s -> it_wait it = WaitFails eintr ->
  let m := if eintr then Msg LWarn (str "poll interrupted by signal") else Msg LErr (str "poll failed: " ++ v_poll v) in
  In m (iterate_messages v linux listener W app cs T it s) <-> linux = false.
Proof.
  intros v linux listener W app cs T k0 w0 ok A s it eintr H R Hw m. unfold iterate_messages. rewrite Hw. cbn [poller_poll]. rewrite !in_app_iff. cbn [poll_messages].
  assert (N : ~ In m (reap_messages v linux W (it_clock it) (sv_conns W s) s)).
  { assert (B : begins (str "poll") (m_text m) = true) by (unfold m; destruct eintr; reflexivity). clearbody m. clear R. generalize s at 2. generalize (sv_conns W s).
    intros l. induction l as [|[fd e] l IH]; intros s1; [easy|]. cbn [reap_messages]. destruct (has_timed_out _ _); [|apply IH]. rewrite !in_app_iff.
    intros [[K|[]]|[K|K]]; [| |now apply IH in K].
    - rewrite <- K in B. discriminate.
    - unfold remove_messages in K. destruct linux; [|destruct K]. destruct (fst _) in K; [destruct K|]. destruct K as [K|[]]. rewrite <- K in B. discriminate. }
  unfold poll_messages. destruct linux.
  - split; [|discriminate]. intros [K|[[]|[]]]. now apply N in K.
  - split; [reflexivity|]. intros _. right. left. unfold m. destruct eintr; now left.
Qed.
Print Assumptions C115_poll_failures.
(** and a failing registration of a new connection, with the reason the system gives. *)
Theorem C115_register_failures : forall v listener W app cs T k0 w0 ok A m a pending s s' fd,
  setting listener k0 -> reached true listener W app cs T k0 w0 ok A ((listener, (m, a)) :: pending) s ->
  ar_accept a = AcceptFd fd true -> 0 <= fd -> mget fd (k_open (sv_kernel W s)) = None -> lenZ (sv_conns W s) < 128 ->
  handle_incoming_connection true W a s = Ret s' ->
  (mget fd (p_fds (sv_poller W s')) = None <->
   exists n, decimal n fd /\ In (Msg LWarn (str "epoll_ctl: failed (fd: " ++ n ++ str "): " ++ v_lack v)) (incoming_messages v true W a s)).
Proof.
  intros v listener W app cs T k0 w0 ok A m a pending s s' fd [H1 H2] R Ha Hf Ho Hl E.
  destruct (reached_good _ _ _ _ _ _ _ _ H1 H2 _ _ _ _ R) as (G & _ & _).
  assert (P : mget fd (p_fds (sv_poller W s)) = None).
  { destruct (mget fd (p_fds (sv_poller W s))) as [x|] eqn:Ex; [|reflexivity]. exfalso.
    destruct (proj1 (g_stale _ _ _ _ _ _ _ _ _ G) _ _ Ex) as [->|[e C]].
    - assert (K : mget listener (k_open (sv_kernel W s)) = Some (k_objects k0)) by (apply (g_desc _ _ _ _ _ _ _ _ _ G); auto). congruence.
    - apply (good_open _ _ _ _ _ _ _ _ H2) with (1 := G) in C. congruence. }
  assert (Q : mget fd (k_watch (sv_kernel W s)) = None) by (rewrite (proj2 (g_stale _ _ _ _ _ _ _ _ _ G) eq_refl), P; reflexivity).
  pose proof Ho as Ho'. apply mhas_false in Ho'. assert (L : fd <? 0 = false) by now apply Z.ltb_ge.
  unfold handle_incoming_connection, establish_conn, try_accept, MAX_CONNECTIONS in E. rewrite Z.geb_leb in E. apply Z.leb_gt in Hl. rewrite Hl, Ha, L, Ho' in E.
  cbn [negb orb obind] in E. destruct (ar_transport a) eqn:Et; [|discriminate E]. cbn [negb] in E. injection E as <-.
  unfold incoming_messages, establish_messages, try_accept, MAX_CONNECTIONS. rewrite Z.geb_leb, Hl, Ha, L, Ho', Et. cbn [negb orb].
  unfold set, set_messages, set_poller, poller_set, epoll_ctl, ctl_error. cbn [set_conns set_kernel sv_conns sv_kernel sv_poller k_new k_open k_watch].
  assert (P' : mhas fd (p_fds (sv_poller W s)) = false) by now apply mhas_false.
  assert (Q' : mhas fd (k_watch (sv_kernel W s)) = false) by now apply mhas_false.
  assert (O' : mhas fd (mput fd (k_objects (sv_kernel W s)) (k_open (sv_kernel W s))) = true) by (unfold mhas; now rewrite mget_mput, Z.eqb_refl).
  rewrite P', Q', O'. cbn [negb]. destruct (ctl_ok 0 a); cbn [fst snd sv_poller p_fds].
  - rewrite mget_mput, Z.eqb_refl. split; [discriminate|]. intros (n & _ & K). exfalso. rewrite !in_app_iff in K.
    destruct K as [K|[K|[[K|[]]|[[K|[]]|[]]]]]; try (apply (f_equal (fun m => begins (str "epoll_ctl") (m_text m))) in K; discriminate).
    + unfold accept_messages in K. destruct (v_nodelay v _) in K; [|destruct K]. destruct K as [K|[]]. apply (f_equal (fun m => begins (str "epoll_ctl") (m_text m))) in K. discriminate.
    + unfold ip_messages in K. destruct (v_peer v _) in K; ins.
  - split; [|intros _; exact P]. intros _. exists (to_string fd). split; [now apply to_string_spec|]. rewrite !in_app_iff. right. right. right. right. now left.
Qed.
Print Assumptions C115_register_failures.

(** ** Cases *)
Definition a_voice : voice :=
  Voice (fun n => if Nat.eqb n 4 then PeerV4 10 0 0 1 else PeerFails) (fun _ => str "Transport endpoint is not connected") (fun _ => 1)
    (fun _ => None) (str "No space left on device") (str "Invalid argument").
Definition told_run : list iteration :=
  some_run ++ [Iteration (fun fd => if fd =? 4 then 5000000001 else 0) WaitNothing [StopStdErr; StopSignal]].
Definition told_messages (linux : bool) (T : tree) : list message :=
  start_messages a_voice linux 3 unit hi true T 8443 true true None k_std tt told_run.
Example C115_case : forall T, exists b s, start true 3 unit hi true T true true None k_std tt told_run = Ret (b, s) /\
  b = true /\ lenZ (sv_conns unit s) = 1 /\
  told_messages true T =
    [Msg LInfo (str "listening on port 8443");
     Msg LInfo (str "client connected (ip: 10.0.0.1)");
     Msg LInfo (str "HTTP connection established. total = 1");
     Msg LErr (str "getpeername failed: Transport endpoint is not connected");
     Msg LInfo (str "client connected (ip: unknown)");
     Msg LInfo (str "HTTP connection established. total = 2");
     Msg LWarn (str "epoll_ctl: DEL failed (fd: 5): Bad file descriptor");
     Msg LErr (str "getpeername failed: Transport endpoint is not connected");
     Msg LInfo (str "client connected (ip: unknown)");
     Msg LInfo (str "HTTP connection established. total = 2");
     Msg LWarn (str "closing connection due to inactivity (fd: 4)");
     Msg LInfo (str "server shutting down (reason: signal)")].
Proof. intros T. apply by_start. vm_compute. repeat split; reflexivity. Qed.
Lemma told_run_ok : setting 3 k_std /\ Forall iteration_ok told_run /\ Forall enough_resources told_run /\ forall n, peer_ok (v_peer a_voice n).
Proof.
  split; [exact k_std_setting|]. destruct (iterations_ok told_run) as [H1 H2]; [vm_compute; reflexivity|]. split; [exact H1|]. split; [exact H2|].
  intros n. cbn [a_voice v_peer]. destruct (Nat.eqb n 4); [|exact I]. cbn [peer_ok]. repeat constructor; unfold is_byte; lia.
Qed.
(** With poll, the hang-up leaves no trace on the console. *)
Theorem C115_counts_elsewhere_refuted : forall T, exists b s, start false 3 unit hi true T true true None k_std tt told_run = Ret (b, s) /\
  lenZ (sv_conns unit s) = 1 /\ counted 0 (told_messages false T) = 2 /\ ~ totals 0 (told_messages false T).
Proof.
  intros T.
  assert (X : exists b s, start false 3 unit hi true T true true None k_std tt told_run = Ret (b, s) /\
    (lenZ (sv_conns unit s) = 1 /\ told_messages false T =
      [Msg LInfo (str "listening on port 8443");
       Msg LInfo (str "client connected (ip: 10.0.0.1)");
       Msg LInfo (str "HTTP connection established. total = 1");
       Msg LErr (str "getpeername failed: Transport endpoint is not connected");
       Msg LInfo (str "client connected (ip: unknown)");
       Msg LInfo (str "HTTP connection established. total = 2");
       Msg LErr (str "getpeername failed: Transport endpoint is not connected");
       Msg LInfo (str "client connected (ip: unknown)");
       Msg LInfo (str "HTTP connection established. total = 2");
       Msg LWarn (str "closing connection due to inactivity (fd: 4)");
       Msg LInfo (str "server shutting down (reason: signal)")])).
  { apply by_start. vm_compute. repeat split; reflexivity. }
  destruct X as (b & s & E & E1 & E2). exists b, s. split; [exact E|]. split; [exact E1|]. rewrite E2. split; [reflexivity|].
  cbn [totals]. intros (_ & _ & _ & _ & _ & _ & _ & _ & H & _). destruct (H eq_refl) as (t & Et & D).
  assert (E' : t = str "2").
  { apply (app_inv_head (str "HTTP connection established. total = ")). symmetry. exact Et. }
  rewrite E' in D. destruct D as (_ & D & _). vm_compute in D. discriminate.
Qed.
Print Assumptions C115_counts_elsewhere_refuted.
Example C115_idle_case : forall linux T, exists s, reached linux 3 unit hi true T k_std tt true enough_resources [] s /\
  reap_messages a_voice linux unit (fun fd => if fd =? 5 then 5000000000 else 5000000001) (sv_conns unit s) s =
    [Msg LWarn (str "closing connection due to inactivity (fd: 4)")].
Proof. intros [] T; run some_run. Qed.
Example C115_complaints_case : forall T, exists s, reached true 3 unit hi true T k_std tt true enough_resources [(5, (4, PropServer.quiet AcceptAgain nothing))] s /\
  exists e, conn_at unit s 5 e.
Proof.
  intros T. destruct (by_reached (linux := true) (W := unit) (app := hi) (cs := true) (T := T) [at_time 0 [arrives 5]] (w0 := tt)
    (fun s => (exists e, conn_at unit s 5 e) /\
      fst (poller_poll true (it_wait (at_time 0 [(5, (16, PropServer.quiet AcceptAgain nothing))])) (sv_poller unit s) (sv_kernel unit s)) = Val [(5, (4, PropServer.quiet AcceptAgain nothing))]))
    as (s & R & [e C] & P).
  { vm_compute. split; [eexists; reflexivity|reflexivity]. }
  { apply iterations_ok. vm_compute. reflexivity. }
  destruct (poller_poll true (it_wait (at_time 0 [(5, (16, PropServer.quiet AcceptAgain nothing))])) (sv_poller unit s) (sv_kernel unit s)) as [evs p] eqn:E. cbn [fst] in P. subst evs.
  destruct (iterations_ok [at_time 0 [(5, (16, PropServer.quiet AcceptAgain nothing))]]) as [O1 O2]; [vm_compute; reflexivity|].
  apply Forall_cons_iff in O1 as [O1 _]. apply Forall_cons_iff in O2 as [O2 _].
  pose proof (reached_poll _ _ _ _ _ _ _ _ _ _ _ _ _ _ R O1 O2 E) as R'. exists (set_poller unit (p, sv_kernel unit s) s). split; [exact R'|]. exists e. exact C.
Qed.

(** A third client for whom three calls fail. *)
Definition sad_voice : voice :=
  Voice (fun _ => PeerOther) (fun _ => []) (fun _ => 1) (fun _ => Some (str "Invalid argument")) (str "No space left on device") (str "Invalid argument").
Definition sad (fd : Z) : surroundings := Around (AcceptFd fd true) true 0 nothing [false].
Example C115_failures_case : forall T, exists s, reached true 3 unit hi true T k_std tt true enough_resources [] s /\
  mget 6 (k_open (sv_kernel unit s)) = None /\ lenZ (sv_conns unit s) < 128 /\
  incoming_messages sad_voice true unit (sad 6) s =
    [Msg LWarn (str "failed to set TCP_NODELAY on client fd: Invalid argument");
     Msg LErr (str "unknown ss_family: 1");
     Msg LInfo (str "client connected (ip: unknown)");
     Msg LInfo (str "HTTP connection established. total = 3");
     Msg LWarn (str "epoll_ctl: failed (fd: 6): No space left on device")] /\
  iterate_messages sad_voice false 3 unit hi true T (Iteration (fun _ => 0) (WaitFails false) []) s =
    [Msg LErr (str "poll failed: Invalid argument")].
Proof. intros T; run some_run. Qed.
