(** C130: the messages of the server loop at levels debug and trace.  What they say of
    connections, sockets and the interest in them. *)
From Verif Require Import Base BaseLemmas Huffman Http Conn SpecConn ConnLemmas ConnBasic ConnTerm ConnWit Poller Server SpecServer ServerProofs
  ServerReach PropServer AccessLog SpecApp AppProofs PropApp FilesServe Messages SpecDebug ServerMessages SpecServerMessages ServerMessagesProofs PropServerMessages
  ServerTrace SpecServerTrace ServerTraceProofs.

(** Above level debug the messages are those of C115. *)
Theorem C130_info : forall v port linux listener tls W app cs T k0 w0 made ok stopped its,
  louder (start_trace v linux listener tls W app cs T port made ok stopped k0 w0 its) =
  start_messages v linux listener W app cs T port made ok stopped k0 w0 its.
Proof. intros v port linux listener tls W app cs T k0 w0 made ok stopped its. apply loud_start. Qed.
Print Assumptions C130_info.

(** With either poller, who follows the messages of level debug and above knows how many
    connections there are: the totals shown are right, and so is the number at the end. *)
Theorem C130_counts : forall v port linux listener tls W app cs T k0 w0 made ok stopped its b s,
  setting listener k0 -> Forall iteration_ok its ->
  start linux listener W app cs T made ok stopped k0 w0 its = Ret (b, s) ->
  let ms := start_trace v linux listener tls W app cs T port made ok stopped k0 w0 its in
  true_totals 0 ms /\ tally 0 ms = lenZ (sv_conns W s).
Proof.
  intros v port linux listener tls W app cs T k0 w0 made ok stopped its b s [H1 H2] Hok E ms.
  destruct (start_kept v linux listener tls W app cs T k0 w0 H1 H2 port made ok stopped its b s Hok E) as [R1 R2 _ _]. auto.
Qed.
Print Assumptions C130_counts.

(** ** Sockets *)
Section Balance.
  Variable linux : bool.
  Variable listener : Z.
  Variable W : Type.
  Variable app : request -> W -> W * app_answer.
  Variable cs : bool.
  Variable T : tree.
  Variable k0 : kernel.
  Variable w0 : W.
  Hypothesis Hk0 : in_order k0.
  Hypothesis Hl0 : 0 <= listener /\ mget listener (k_open k0) = None.
  Notation good := (good linux listener W app cs T k0 w0).
  Definition balance (s : server W) : Z := Z.of_nat (k_objects (sv_kernel W s)) - lenZ (sv_conns W s) - lenZ (k_closed (sv_kernel W s)).
  Lemma dropped_balance fd e s s' : good s -> conn_at W s fd e -> dropped W fd e s s' -> balance s' = balance s.
  Proof.
    intros G C D. destruct (dropped_counts linux listener W app cs T k0 w0 fd e s s' G C D) as (A & B & _). unfold balance. rewrite A, B, (dr_objects _ _ _ _ _ D). lia.
  Qed.
  Lemma set_balance ok fd ev s : balance (set linux W ok fd ev s) = balance s.
  Proof using Type.
    clear Hk0 Hl0. unfold balance. destruct (set_counts linux W ok fd ev s) as (A & B & _). destruct (set_num linux W ok fd ev s) as [_ C]. now rewrite A, B, C.
  Qed.
  Lemma reap_balance clock l : forall s, good s -> NoDup (map fst l) -> (forall fd e, In (fd, e) l -> conn_at W s fd e) -> balance (reap linux W clock l s) = balance s.
  Proof.
    induction l as [|[fd e] l IH]; intros s G Hd Hl; [reflexivity|]. cbn [reap]. cbn [map fst] in Hd.
    inversion Hd as [|x y Hd1 Hd2]; subst x y. assert (C : conn_at W s fd e) by (apply Hl; now left).
    destruct (has_timed_out (clock fd) (e_conn e)); [|apply IH; [exact G|exact Hd2|intros x b K; apply Hl; now right]].
    pose proof (good_open _ _ _ _ _ _ _ _ Hl0 _ _ _ G C) as O. pose proof (drop_remove_erase linux W fd e s C O) as D.
    rewrite IH; [exact (dropped_balance _ _ _ _ G C D)|exact (dropped_good _ _ _ _ _ _ _ _ Hl0 _ _ _ _ G C D)|exact Hd2|].
    intros x b K. unfold conn_at. rewrite (dr_conns _ _ _ _ _ D), mget_mdel. destruct (Z.eqb_spec x fd) as [->|_]; [|apply Hl; now right].
    exfalso. apply Hd1. apply in_map_iff. exists (fd, b). auto.
  Qed.
  Lemma reached_balance ok A pending s : reached linux listener W app cs T k0 w0 ok A pending s -> balance s = Z.of_nat (S (k_objects k0)).
  Proof.
    intros R. induction R as [stopped|clock s R IH|it s evs p R IH H1 H2 E|m a pending s s' R IH E|fd m a pending s s' R IH Hf E|pending s r R IH].
    - rewrite set_balance. unfold balance. cbn [sv_kernel sv_conns k_new k_objects k_closed]. destruct Hk0 as (_ & _ & _ & K4). rewrite K4. unfold lenZ. cbn [length]. lia.
    - destruct (reached_good _ _ _ _ _ _ _ _ Hk0 Hl0 _ _ _ _ R) as (G & _). destruct (g_limit _ _ _ _ _ _ _ _ s G) as (_ & M & _).
      unfold reap_idle_connections. rewrite reap_balance; [exact IH|exact G|exact M|]. intros fd e K. exact (proj2 (mget_entry (sv_conns W s) M fd e) K).
    - exact IH.
    - destruct (reached_good _ _ _ _ _ _ _ _ Hk0 Hl0 _ _ _ _ R) as (G & _). rewrite <- IH.
      apply (incoming_cases linux W app w0) in E as [->|[(fd & F1 & F2 & F3 & ->)|(fd & F1 & F2 & F3 & ->)]]; [reflexivity| |].
      + unfold balance. cbn [set_kernel sv_kernel sv_conns]. unfold k_close. cbn [k_new k_open]. rewrite mget_mput, Z.eqb_refl. cbn [k_new k_objects k_closed].
        rewrite lenZ_app. unfold lenZ. cbn [length]. lia.
      + rewrite set_balance. unfold balance. cbn [set_conns set_kernel sv_kernel sv_conns k_new k_objects k_closed]. unfold mput. rewrite lenZ_cons, mdel_absent; [lia|].
        destruct (mget fd (sv_conns W s)) as [e|] eqn:Ex; [|reflexivity]. rewrite (good_open _ _ _ _ _ _ _ _ Hl0 _ _ _ G Ex) in F2. discriminate.
    - destruct (reached_good _ _ _ _ _ _ _ _ Hk0 Hl0 _ _ _ _ R) as (G & N & Ar). apply Forall_cons_iff in Ar as [Ar _].
      rewrite <- IH. apply events_cases in E as [->|(e & C & [->|(s1 & r & c & tr & w & H1 & Ep & ->)])]; [reflexivity| |].
      + exact (dropped_balance _ _ _ _ G C (drop_erase_remove linux W fd e s C (good_open _ _ _ _ _ _ _ _ Hl0 _ _ _ G C))).
      + assert (G1 : good s1) by (destruct H1 as [->| ->]; [exact G|apply set_good; [exact Hl0|exact G|right; now exists e]]).
        assert (C1 : sv_conns W s1 = sv_conns W s) by (destruct H1 as [->| ->]; reflexivity).
        assert (B1 : balance s1 = balance s) by (destruct H1 as [->| ->]; [reflexivity|apply set_balance]).
        assert (Hc1 : conn_at W s1 fd e) by (unfold conn_at; now rewrite C1).
        cbv zeta. set (e' := Entry (e_socket e) (e_born e) c (Some r) (e_trace e ++ tr)). set (s2 := set_world W w (set_conns W (mput fd e' (sv_conns W s1)) s1)).
        assert (G2 : good s2).
        { eapply updated_good; [exact Hl0|exact G1|exact Hc1|reflexivity|]. unfold own_life, e'. cbn [e_born e_result e_conn e_trace].
          eapply session_process; [exact (proj1 (g_lives _ _ _ _ _ _ _ _ _ G1) fd e Hc1)|exact (N fd e C)|exact Ar|exact I|exact Ep]. }
        assert (B2 : balance s2 = balance s).
        { rewrite <- B1. unfold balance, s2. cbn [set_world set_conns sv_conns sv_kernel].
          rewrite (put_num W app w0 fd e' s1); [reflexivity|apply (g_limit _ _ _ _ _ _ _ _ _ G1)|]. unfold conn_at in Hc1. congruence. }
        assert (C2 : conn_at W s2 fd e') by (unfold conn_at, s2; cbn [set_world set_conns sv_conns]; now rewrite mget_mput, Z.eqb_refl).
        rewrite <- B2. clearbody s2 e'. destruct r; [reflexivity|apply set_balance|].
        exact (dropped_balance _ _ _ _ G2 C2 (drop_remove_erase linux W fd e' s2 C2 (good_open _ _ _ _ _ _ _ _ Hl0 _ _ _ G2 C2))).
    - exact IH.
  Qed.
End Balance.
Lemma clients_louder ms : clients (louder ms) = clients ms.
Proof.
  unfold clients, louder. induction ms as [|m ms IH]; [reflexivity|]. cbn [filter]. destruct (m_level m) eqn:E; cbn [filter]; try (destruct (tells_of_client m); rewrite ?lenZ_cons, IH; reflexivity).
  all: assert (X : tells_of_client m = false) by (unfold tells_of_client, says; rewrite E; reflexivity); rewrite X; exact IH.
Qed.
(** Every socket is told of when it is closed: of the clients told of, those that are closed
    are all but those of the connections there are; when the loop ends, so is the listener.
    With TLS each connection that is gone was told to be freed. *)
Theorem C130_sockets : forall v port linux listener tls W app cs T k0 w0 made ok stopped its b s,
  setting listener k0 -> Forall iteration_ok its ->
  start linux listener W app cs T made ok stopped k0 w0 its = Ret (b, s) ->
  let ms := start_trace v linux listener tls W app cs T port made ok stopped k0 w0 its in
  closes ms = clients ms - lenZ (sv_conns W s) + (if b then 1 else 0) /\
  frees ms = if tls then lenZ (sv_gone W s) else 0.
Proof.
  intros v port linux listener tls W app cs T k0 w0 made ok stopped its b s H Hok E ms. pose proof H as [H1 H2].
  destruct (start_kept v linux listener tls W app cs T k0 w0 H1 H2 port made ok stopped its b s Hok E) as [_ _ R3 R4]. split; [|unfold ms; rewrite R4; destruct tls; lia].
  unfold ms. rewrite R3, <- clients_louder, C130_info. rewrite (proj1 (C115_clients v port linux listener W app cs T k0 w0 made ok stopped its b s H Hok E)).
  pose proof (start_reached linux listener W app cs T k0 w0 made ok stopped its b s (fun _ => True) E Hok (proj2 (Forall_forall (fun _ : iteration => True) its) (fun _ _ => I))) as R.
  pose proof (reached_balance linux listener W app cs T k0 w0 H1 H2 _ _ _ _ R) as B. unfold balance in B. lia.
Qed.
Print Assumptions C130_sockets.

(** The lines name the descriptors: while an event of a connection is handled, such a line is
    there if, and only if, its descriptor was in use before and is not afterwards, *)
Theorem C130_closed_event : forall v linux listener tls W app cs T k0 w0 ok A fd m a pending s s' n,
  setting listener k0 -> reached linux listener W app cs T k0 w0 ok A ((fd, (m, a)) :: pending) s ->
  handle_connection_events linux W app cs T fd m a s = Ret s' ->
  (In (close_line n) (event_trace v linux tls W app cs T fd m a s) <->
   exists x, decimal n x /\ mget x (k_open (sv_kernel W s)) <> None /\ mget x (k_open (sv_kernel W s')) = None).
Proof.
  intros v linux listener tls W app cs T k0 w0 ok A fd m a pending s s' n [H1 H2] R E.
  destruct (reached_good _ _ _ _ _ _ _ _ H1 H2 _ _ _ _ R) as (G & N & Ar). apply Forall_cons_iff in Ar as [Ar _].
  rewrite (telling_in (close_line n)) by reflexivity.
  assert (J : forall l, (exists e, conn_at W s fd e) -> k_open (sv_kernel W s') = mdel fd (k_open (sv_kernel W s)) -> (In (close_line n) l <-> n = to_string fd) ->
    (In (close_line n) l <-> exists x, decimal n x /\ mget x (k_open (sv_kernel W s)) <> None /\ mget x (k_open (sv_kernel W s')) = None)).
  { intros l [e C] O L. rewrite L. assert (F : 0 <= fd) by (eapply (g_desc _ _ _ _ _ _ _ _ _ G); exact C). split.
    - intros ->. exists fd. split; [now apply to_string_spec|]. split; [rewrite (good_open _ _ _ _ _ _ _ _ H2 _ _ _ G C); discriminate|]. rewrite O, mget_mdel, Z.eqb_refl. reflexivity.
    - intros (x & D & X1 & X2). rewrite O, mget_mdel in X2. destruct (Z.eqb_spec x fd) as [->|_]; [|congruence]. apply (decimal_unique n _ fd D). now apply to_string_spec. }
  destruct (event_lines v linux listener tls W app cs T k0 w0 H2 fd m a s s' G N Ar E) as [(L & O & _)|[(L & _ & e & C & D)|[(L & _ & _ & O & _)|(L & _ & C & O & _)]]]; rewrite L.
  - split; [easy|]. intros (x & _ & X1 & X2). congruence.
  - apply J; [now exists e|exact (dr_open _ _ _ _ _ D)|]. split; [|intros ->; right; now left]. intros [K|[K|[]]]; [discriminate|]. now injection K as K.
  - split; [intros [K|[]]; discriminate|]. intros (x & _ & X1 & X2). congruence.
  - apply J; [exact C|exact O|]. split; [|intros ->; now left]. intros [K|[]]. now injection K as K.
Qed.
Print Assumptions C130_closed_event.
(** while idle connections are looked for likewise, *)
Theorem C130_closed_idle : forall v linux listener tls W app cs T k0 w0 ok A pending s clock n,
  setting listener k0 -> reached linux listener W app cs T k0 w0 ok A pending s ->
  (In (close_line n) (reap_trace v linux tls W clock (sv_conns W s) s) <->
   exists x, decimal n x /\ mget x (k_open (sv_kernel W s)) <> None /\ mget x (k_open (sv_kernel W (reap_idle_connections linux W clock s))) = None).
Proof.
  intros v linux listener tls W app cs T k0 w0 ok A pending s clock n [H1 H2] R.
  destruct (reached_good _ _ _ _ _ _ _ _ H1 H2 _ _ _ _ R) as (G & _). destruct (g_limit _ _ _ _ _ _ _ _ s G) as (_ & M & _).
  destruct (ServerTraceProofs.reap_lines v linux listener tls W app cs T k0 w0 H2 clock (sv_conns W s) s G M (fun fd e K => proj2 (mget_entry (sv_conns W s) M fd e) K)) as [L O].
  rewrite (telling_in (close_line n)) by reflexivity. rewrite L, in_map_iff. unfold reap_idle_connections. split.
  - intros ([fd e] & K & I). apply filter_In in I as [I X]. cbn [fst snd] in *. injection K as K. apply (mget_entry _ M) in I. exists fd.
    split; [rewrite <- K; apply to_string_spec; eapply (g_desc _ _ _ _ _ _ _ _ _ G); exact I|]. split; [rewrite (good_open _ _ _ _ _ _ _ _ H2 _ _ _ G I); discriminate|].
    rewrite O, I, X. reflexivity.
  - intros (fd & D & X1 & X2). rewrite O in X2. destruct (mget fd (sv_conns W s)) as [e|] eqn:C; [|congruence].
    destruct (has_timed_out (clock fd) (e_conn e)) eqn:X; [|congruence]. exists (fd, e). split; [|apply filter_In; split; [now apply mget_entry|exact X]].
    cbn [fst]. f_equal. apply (decimal_unique _ n fd); [|exact D]. apply to_string_spec. eapply (g_desc _ _ _ _ _ _ _ _ _ G). exact C.
Qed.
Print Assumptions C130_closed_idle.
(** and while a new client is dealt with, it is there if the client is turned away. *)
Theorem C130_closed_incoming : forall v linux listener W app cs T k0 w0 ok A m a pending s s' n,
  setting listener k0 -> reached linux listener W app cs T k0 w0 ok A ((listener, (m, a)) :: pending) s ->
  handle_incoming_connection linux W a s = Ret s' ->
  (In (close_line n) (incoming_trace v linux W a s) <->
   exists x, decimal n x /\ ar_accept a = AcceptFd x true /\ mget x (k_open (sv_kernel W s)) = None /\ mget x (k_open (sv_kernel W s')) = None).
Proof.
  intros v linux listener W app cs T k0 w0 ok A m a pending s s' n [H1 H2] R E.
  destruct (reached_good _ _ _ _ _ _ _ _ H1 H2 _ _ _ _ R) as (G & _).
  rewrite (telling_in (close_line n)) by reflexivity.
  destruct (incoming_lines v linux listener W app cs T k0 w0 a s s' G E) as [(L & O)|(fd & L & X1 & X2 & X3 & X4)]; rewrite L.
  - split; [easy|]. intros (x & D & Y1 & Y2 & Y3). apply (O x Y1); [exact (decimal_nonneg n x D)|exact Y2|exact Y3].
  - split.
    + intros [K|[]]. injection K as K. exists fd. split; [rewrite <- K; now apply to_string_spec|auto].
    + intros (x & D & Y1 & Y2 & Y3). rewrite X1 in Y1. injection Y1 as <-. left. unfold close_line. do 2 f_equal. apply (decimal_unique _ n fd); [now apply to_string_spec|exact D].
Qed.
Print Assumptions C130_closed_incoming.

(** If an exception ends that, the socket of the client, if there is one, is told to be closed. *)
Theorem C130_closed_thrown : forall v linux W a s n,
  handle_incoming_connection linux W a s = Throw ->
  (In (close_line n) (incoming_trace v linux W a s) <-> exists x nonblocking, decimal n x /\ ar_accept a = AcceptFd x nonblocking).
Proof.
  intros v linux W a s n E. rewrite (telling_in (close_line n)) by reflexivity. unfold handle_incoming_connection, incoming_trace, establish_conn, establish_trace, accept_trace, try_accept in *.
  assert (J : forall x l nb, 0 <= x -> ar_accept a = AcceptFd x nb -> l = [close_line (to_string x)] ->
    (In (close_line n) l <-> exists x nonblocking, decimal n x /\ ar_accept a = AcceptFd x nonblocking)).
  { intros x l nb Hx Ha ->. split.
    - intros [K|[]]. injection K as K. exists x, nb. split; [rewrite <- K; now apply to_string_spec|exact Ha].
    - intros (y & nb' & D & K). rewrite Ha in K. injection K as <- _. left. unfold close_line. do 2 f_equal. apply (decimal_unique _ n x); [now apply to_string_spec|exact D]. }
  destruct (ar_accept a) as [x nb| |] eqn:Ha.
  - destruct (Z.ltb_spec x 0) as [Hx|Hx]; cbn [orb obind] in *; [destruct (negb _); discriminate E|].
    assert (X : closing_trace x = [close_line (to_string x)]) by (unfold closing_trace; apply Z.leb_le in Hx; rewrite Z.geb_leb, Hx; reflexivity).
    destruct (mhas x (k_open (sv_kernel W s))); cbn [obind] in *; [destruct (negb _); discriminate E|]. destruct nb; cbn [obind] in *.
    + destruct (negb (lenZ (sv_conns W s) >=? MAX_CONNECTIONS)); [|discriminate E]. destruct (ar_transport a); [discriminate E|].
      apply (J x _ true Hx eq_refl). rewrite !filter_app, accept_dull, ip_dull, X. reflexivity.
    + apply (J x _ false Hx eq_refl). rewrite X. destruct (negb (lenZ (sv_conns W s) >=? MAX_CONNECTIONS)); reflexivity.
  - cbn [obind] in E. destruct (negb _); discriminate E.
  - split; [destruct (negb (lenZ (sv_conns W s) >=? MAX_CONNECTIONS)); intros []|]. intros (x & nb & _ & K). discriminate.
Qed.
Print Assumptions C130_closed_thrown.

(** A hang-up (bit 2 or 3 of the poller's mask) is told of, with either poller. *)
Theorem C130_hangup : forall v linux listener tls W app cs T k0 w0 ok A fd m a pending s s',
  setting listener k0 -> reached linux listener W app cs T k0 w0 ok A ((fd, (m, a)) :: pending) s ->
  handle_connection_events linux W app cs T fd m a s = Ret s' ->
  (In (Msg LDebug (str "poll indicated connection closed")) (event_trace v linux tls W app cs T fd m a s) <->
   (exists e, conn_at W s fd e) /\ (Z.testbit m 2 = true \/ Z.testbit m 3 = true)).
Proof.
  intros v linux listener tls W app cs T k0 w0 ok A fd m a pending s s' [H1 H2] R E.
  destruct (reached_good _ _ _ _ _ _ _ _ H1 H2 _ _ _ _ R) as (G & N & Ar). apply Forall_cons_iff in Ar as [Ar _].
  change (Msg LDebug _) with hangup_line. rewrite (telling_in hangup_line) by reflexivity.
  assert (B : broken m = true <-> Z.testbit m 2 = true \/ Z.testbit m 3 = true) by (rewrite broken_bits, orb_true_iff; tauto). rewrite <- B.
  destruct (event_lines v linux listener tls W app cs T k0 w0 H2 fd m a s s' G N Ar E) as [(L & _ & X & _)|[(L & X & e & C & _)|[(L & X & _)|(L & X & _)]]]; rewrite L; [|rewrite X|rewrite X|rewrite X].
  - split; [easy|]. intros [C K]. rewrite (X C) in K. discriminate.
  - split; [intros _; split; [now exists e|reflexivity]|intros _; now left].
  - split; [intros [K|[]]; discriminate|intros [_ K]; discriminate].
  - split; [intros [K|[]]; discriminate|intros [_ K]; discriminate].
Qed.
Print Assumptions C130_hangup.
(** That the server waits until it can write is told of whenever an event (bit 0 or 1) leaves a
    connection with output that the system does not take; *)
Theorem C130_write : forall v linux listener tls W app cs T k0 w0 ok A fd m a pending s s' n,
  setting listener k0 -> reached linux listener W app cs T k0 w0 ok A ((fd, (m, a)) :: pending) s ->
  handle_connection_events linux W app cs T fd m a s = Ret s' ->
  (In (write_line n) (event_trace v linux tls W app cs T fd m a s) <->
   decimal n fd /\ (exists e', conn_at W s' fd e' /\ e_result e' = Some WantWrite) /\ (Z.testbit m 0 = true \/ Z.testbit m 1 = true)).
Proof.
  intros v linux listener tls W app cs T k0 w0 ok A fd m a pending s s' n [H1 H2] R E.
  destruct (reached_good _ _ _ _ _ _ _ _ H1 H2 _ _ _ _ R) as (G & N & Ar). apply Forall_cons_iff in Ar as [Ar _].
  destruct (events_good _ _ _ _ _ _ _ _ H2 _ _ _ _ _ G N Ar E) as [G' _].
  rewrite (telling_in (write_line n)) by reflexivity.
  assert (B : ready m = true <-> Z.testbit m 0 = true \/ Z.testbit m 1 = true) by (rewrite ready_bits, orb_true_iff; tauto). rewrite <- B.
  destruct (event_lines v linux listener tls W app cs T k0 w0 H2 fd m a s s' G N Ar E) as [(L & _ & _ & X)|[(L & _ & e & _ & D)|[(L & _ & X & _ & e & C & Y)|(L & _ & _ & _ & X)]]]; rewrite L.
  - split; [easy|]. intros (_ & (e & C & Y) & K). now apply (X K e C) in Y.
  - split; [intros [K|[K|[]]]; discriminate|]. intros (_ & (e' & C & _) & _). unfold conn_at in C. rewrite (dr_conns _ _ _ _ _ D), mget_mdel, Z.eqb_refl in C. discriminate.
  - assert (F : 0 <= fd) by (eapply (g_desc _ _ _ _ _ _ _ _ _ G'); exact C). split.
    + intros [K|[]]. injection K as K. split; [rewrite <- K; now apply to_string_spec|]. split; [now exists e|exact X].
    + intros (D & _). left. unfold write_line. do 2 f_equal. apply (decimal_unique _ n fd); [now apply to_string_spec|exact D].
  - split; [intros [K|[]]; discriminate|]. intros (_ & (e' & C & _) & _). unfold conn_at in C. congruence.
Qed.
Print Assumptions C130_write.
(** where epoll_ctl lacks no resources, the poller then waits for both (bits 0 and 1). *)
Theorem C130_write_interest : forall v linux listener tls W app cs T k0 w0 fd m a pending s s' n,
  setting listener k0 -> reached linux listener W app cs T k0 w0 true enough_resources ((fd, (m, a)) :: pending) s -> fd <> listener ->
  handle_connection_events linux W app cs T fd m a s = Ret s' ->
  In (write_line n) (event_trace v linux tls W app cs T fd m a s) -> mget fd (p_fds (sv_poller W s')) = Some 3.
Proof.
  intros v linux listener tls W app cs T k0 w0 fd m a pending s s' n H R Hf E K.
  apply (C130_write v linux listener tls W app cs T k0 w0 _ _ fd m a pending s s' n H R E) in K as (_ & (e & C & Y) & _). destruct H as [H1 H2].
  pose proof (reached_event _ _ _ _ _ _ _ _ _ _ _ _ _ _ _ _ R Hf E) as R'.
  destruct (reached_watched _ _ _ _ _ _ _ _ H1 H2 _ _ R') as (HW & _). destruct (proj2 HW fd e C) as (x & X1 & _ & X3). rewrite X1, (X3 Y). reflexivity.
Qed.
Print Assumptions C130_write_interest.
(** That nothing happened for a while is told of with poll only. *)
Theorem C130_timeout : forall v linux listener tls W app cs T s it,
  it_wait it = WaitNothing -> (In timeout_line (iterate_trace v linux listener tls W app cs T it s) <-> linux = false).
Proof.
  intros v linux listener tls W app cs T s it Hw. unfold iterate_trace. rewrite Hw. cbn [poller_poll]. rewrite !in_app_iff.
  assert (N : ~ In timeout_line (reap_trace v linux tls W (it_clock it) (sv_conns W s) s)).
  { generalize s at 2. generalize (sv_conns W s). intros l. induction l as [|[fd e] l IH]; intros s1; [easy|]. cbn [reap_trace]. destruct (has_timed_out _ _); [|apply IH]. rewrite !in_app_iff.
    intros [[K|[]]|[K|[K|K]]]; [discriminate| | |now apply IH in K].
    - unfold remove_messages in K. destruct linux; [|destruct K]. destruct (fst _) in K; [destruct K|]. destruct K as [K|[]]. discriminate.
    - unfold erase_trace, destroy_trace, closing_trace in K. destruct (mget _ _) in K; [|destruct K]. apply in_app_iff in K as [K|K]; [destruct tls; [destruct K as [K|[]]; discriminate|destruct K]|].
      destruct (fd >=? 0); [destruct K as [K|[]]; discriminate|destruct K]. }
  unfold poll_trace. destruct linux.
  - split; [|discriminate]. intros [K|[[]|[]]]. now apply N in K.
  - split; [reflexivity|]. intros _. right. left. now left.
Qed.
Print Assumptions C130_timeout.
(** The last line is about the listener, also if the loop is ended by an exception. *)
Theorem C130_last : forall v port linux listener tls W app cs T k0 w0 ok stopped its,
  0 <= listener ->
  (exists s, start linux listener W app cs T true ok stopped k0 w0 its = Ret (true, s)) \/ start linux listener W app cs T true ok stopped k0 w0 its = Throw ->
  exists ms n, decimal n listener /\ start_trace v linux listener tls W app cs T port true ok stopped k0 w0 its = ms ++ [close_line n].
Proof.
  intros v port linux listener tls W app cs T k0 w0 ok stopped its Hl E. unfold start, start_trace in *. cbn [negb] in *.
  assert (Y : forall x : out (bool * server W), (exists s, x = Ret (true, s)) \/ x = Throw ->
    match x with Ret (true, _) | Throw => closing_trace listener | _ => [] end = closing_trace listener) by (intros x [[s ->]| ->]; reflexivity).
  rewrite (Y _ E). clear Y.
  unfold closing_trace. pose proof Hl as Hl'. apply Z.leb_le in Hl'. rewrite Z.geb_leb, Hl'.
  exists ([info (str "listening on port " ++ to_string port)] ++ set_messages v linux W ok listener PRead (Server W [] stopped new_poller (k_new listener k0) w0 []) ++
    loop_trace v linux listener tls W app cs T its (set linux W ok listener PRead (Server W [] stopped new_poller (k_new listener k0) w0 []))), (to_string listener).
  split; [now apply to_string_spec|]. rewrite <- !app_assoc. reflexivity.
Qed.
Print Assumptions C130_last.

(** ** Cases *)
Definition traced_messages (linux tls : bool) (T : tree) : list message :=
  start_trace a_voice linux 3 tls unit hi true T 8443 true true None k_std tt told_run.
Example C130_case : forall T, exists b s, start true 3 unit hi true T true true None k_std tt told_run = Ret (b, s) /\
  b = true /\ lenZ (sv_conns unit s) = 1 /\ lenZ (sv_gone unit s) = 2 /\
  traced_messages true true T =
    [Msg LInfo (str "listening on port 8443");
     Msg LInfo (str "client connected (ip: 10.0.0.1)");
     Msg LInfo (str "HTTP connection established. total = 1");
     Msg LErr (str "getpeername failed: Transport endpoint is not connected");
     Msg LInfo (str "client connected (ip: unknown)");
     Msg LInfo (str "HTTP connection established. total = 2");
     Msg LDebug (str "poll indicated connection closed");
     Msg LDebug (str "freeing OpenSSL");
     Msg LTrace (str "closing socket fd 5");
     Msg LWarn (str "epoll_ctl: DEL failed (fd: 5): Bad file descriptor");
     Msg LErr (str "getpeername failed: Transport endpoint is not connected");
     Msg LInfo (str "client connected (ip: unknown)");
     Msg LInfo (str "HTTP connection established. total = 2");
     Msg LWarn (str "closing connection due to inactivity (fd: 4)");
     Msg LDebug (str "freeing OpenSSL");
     Msg LTrace (str "closing socket fd 4");
     Msg LInfo (str "server shutting down (reason: signal)");
     Msg LTrace (str "closing socket fd 3")].
Proof. intros T. apply by_start. vm_compute. repeat split; reflexivity. Qed.
(** With poll and cleartext. *)
Example C130_poll_case : forall T, exists b s, start false 3 unit hi true T true true None k_std tt told_run = Ret (b, s) /\
  b = true /\ lenZ (sv_conns unit s) = 1 /\ tally 0 (traced_messages false false T) = 1 /\
  traced_messages false false T =
    [Msg LInfo (str "listening on port 8443");
     Msg LInfo (str "client connected (ip: 10.0.0.1)");
     Msg LInfo (str "HTTP connection established. total = 1");
     Msg LErr (str "getpeername failed: Transport endpoint is not connected");
     Msg LInfo (str "client connected (ip: unknown)");
     Msg LInfo (str "HTTP connection established. total = 2");
     Msg LDebug (str "poll indicated connection closed");
     Msg LTrace (str "closing socket fd 5");
     Msg LErr (str "getpeername failed: Transport endpoint is not connected");
     Msg LInfo (str "client connected (ip: unknown)");
     Msg LInfo (str "HTTP connection established. total = 2");
     Msg LWarn (str "closing connection due to inactivity (fd: 4)");
     Msg LTrace (str "closing socket fd 4");
     Msg LTrace (str "poll timed out");
     Msg LInfo (str "server shutting down (reason: signal)");
     Msg LTrace (str "closing socket fd 3")].
Proof. intros T. apply by_start. vm_compute. repeat split; reflexivity. Qed.
(** A connection that has to wait, and one that hangs up. *)
Example C130_event_case : forall linux T, exists s, reached linux 3 unit hi true T k_std tt true enough_resources [] s /\
  event_trace a_voice linux true unit hi true T 4 1 (snd (snd (blocking 4 (w_hello ++ w_get)))) s = [Msg LTrace (str "will poll write events for fd 4")] /\
  hd (Msg LOff []) (event_trace a_voice linux true unit hi true T 4 4 (PropServer.quiet AcceptAgain nothing) s) = Msg LDebug (str "poll indicated connection closed").
Proof. intros [] T; run [at_time 0 [arrives 4]]. Qed.
(** The second client is the last: its socket cannot be made non-blocking. *)
Example C130_thrown_case : forall linux T,
  start linux 3 unit hi true T true true None k_std tt [at_time 0 [arrives 4]; at_time 0 [(3, (1, PropServer.quiet (AcceptFd 5 false) nothing))]] = Throw /\
  start_trace a_voice linux 3 true unit hi true T 8443 true true None k_std tt [at_time 0 [arrives 4]; at_time 0 [(3, (1, PropServer.quiet (AcceptFd 5 false) nothing))]] =
    [Msg LInfo (str "listening on port 8443");
     Msg LInfo (str "client connected (ip: 10.0.0.1)");
     Msg LInfo (str "HTTP connection established. total = 1");
     Msg LTrace (str "closing socket fd 5");
     Msg LTrace (str "closing socket fd 3")].
Proof. intros [] T; split; vm_compute; reflexivity. Qed.
