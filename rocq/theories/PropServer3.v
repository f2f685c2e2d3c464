(** C91, C92 and C93: waiting for TLS handshakes, the listener's registration, and how long
    a client may take. *)
From Verif Require Import Base BaseLemmas Huffman Http Conn SpecConn ConnLemmas ConnBasic ConnTerm ConnSpec ConnWit
  Poller Server SpecServer ServerProofs ServerReach SocketProofs ServerHistory Transport SpecEarly ServerMore PropServer PropServer2.

(** ** C91 *)
Theorem C91_reads_only : forall linux listener W app cs T k0 w0 ok A pending s fd e x,
  setting listener k0 -> reached linux listener W app cs T k0 w0 ok A pending s ->
  conn_at W s fd e -> ~ handshaken (e_trace e) -> mget fd (p_fds (sv_poller W s)) = Some x ->
  x = 1 /\ (linux = true -> mget fd (k_watch (sv_kernel W s)) = Some 1).
Proof.
  intros linux listener W app cs T k0 w0 ok A pending s fd e x [H1 H2] H Hc Hh Hx.
  destruct (reached_good _ _ _ _ _ _ _ _ H1 H2 _ _ _ _ H) as (G & N & _).
  assert (E : e_trace e = []) by exact (not_handshaken _ _ _ _ _ _ _ _ s G N fd e Hc Hh).
  pose proof (reached_patient _ _ _ _ _ _ _ _ H1 H2 _ _ _ _ H fd e x Hc E Hx) as ->. split; [reflexivity|].
  intros Hl. destruct (g_stale _ _ _ _ _ _ _ _ _ G) as [_ S2]. now rewrite (S2 Hl), Hx.
Qed.
Print Assumptions C91_reads_only.
(** So a handshake that waits until it can write is not continued when it can: the system
    does not say so. *)
Theorem C91_not_continued : forall linux listener W app cs T k0 w0 s it evs s' fd e,
  setting listener k0 -> reached linux listener W app cs T k0 w0 true enough_resources [] s ->
  iteration_ok it -> it_wait it = WaitEvents evs -> NoDup (map fst evs) -> (linux = true -> lenZ evs <= p_size (sv_poller W s)) ->
  iterate linux listener W app cs T it s = Ret s' -> conn_at W s fd e -> ~ handshaken (e_trace e) ->
  it_clock it fd - e_born e <= 5000000000 ->
  (forall m a, In (fd, (m, a)) evs -> asked_for linux W s fd m /\
     Z.testbit m 0 = false /\ Z.testbit m 3 = false /\ Z.testbit m 4 = false) ->
  conn_at W s' fd e.
Proof.
  intros linux listener W app cs T k0 w0 s it evs s' fd e Hs H Hok Hw Hd Hz E Hc Hh Hi Hm. destruct (proj1 Hs, proj2 Hs) as [H1 H2].
  destruct (reached_good _ _ _ _ _ _ _ _ H1 H2 _ _ _ _ H) as (G & N & _).
  assert (Et : e_trace e = []) by exact (not_handshaken _ _ _ _ _ _ _ _ s G N fd e Hc Hh).
  destruct (C77_served _ _ _ _ _ _ _ _ s it evs s' fd e Hs H Hok Hw Hd Hz E Hc) as (_ & K2 & K3). rewrite Et in K2, K3. cbn [last_success] in K2, K3.
  destruct (in_dec Z.eq_dec fd (map fst evs)) as [Ki|Ki]; [|exact (K3 Hi Ki)].
  apply in_map_iff in Ki as ([fd' [m a]] & Ef & Ki). cbn [fst] in Ef. subst fd'. destruct (Hm m a Ki) as ((x & Hx & _ & _ & X2) & M0 & M3 & M4).
  destruct (C91_reads_only _ _ _ _ _ _ _ _ _ _ _ _ _ _ x Hs H Hc Hh Hx) as [-> _].
  assert (M2 : Z.testbit m 2 = false) by (destruct (Z.testbit m 2); [now specialize (X2 eq_refl)|reflexivity]).
  destruct (K2 Hi m a Ki) as (o & S & B). inversion S; subst; try exact B; exfalso; intuition congruence.
Qed.
Print Assumptions C91_not_continued.
(** One that waits until it can read goes on when it can. *)
Theorem C91_waits_partial : forall linux listener W app cs T k0 w0 s it evs s' fd e m a t hs,
  setting listener k0 -> reached linux listener W app cs T k0 w0 true enough_resources [] s ->
  iteration_ok it -> it_wait it = WaitEvents evs -> NoDup (map fst evs) -> (linux = true -> lenZ evs <= p_size (sv_poller W s)) ->
  iterate linux listener W app cs T it s = Ret s' -> conn_at W s fd e -> ~ handshaken (e_trace e) ->
  it_clock it fd - e_born e <= 5000000000 ->
  In (fd, (m, a)) evs -> Z.testbit m 0 = true -> Z.testbit m 3 = false -> Z.testbit m 4 = false -> sc_hs (ar_scripts a) = (t, HsOk) :: hs ->
  became W s' fd e None \/ exists e', conn_at W s' fd e' /\ e_socket e' = e_socket e /\ handshaken (e_trace e').
Proof.
  intros linux listener W app cs T k0 w0 s it evs s' fd e m a t hs Hs H Hok Hw Hd Hz E Hc Hh Hi Ki M0 M3 M4 Ha. destruct (proj1 Hs, proj2 Hs) as [H1 H2].
  destruct (reached_good _ _ _ _ _ _ _ _ H1 H2 _ _ _ _ H) as (G & N & _).
  assert (Et : e_trace e = []) by exact (not_handshaken _ _ _ _ _ _ _ _ s G N fd e Hc Hh).
  destruct (C77_served _ _ _ _ _ _ _ _ s it evs s' fd e Hs H Hok Hw Hd Hz E Hc) as (_ & K2 & _). rewrite Et in K2. cbn [last_success] in K2.
  destruct (K2 Hi m a Ki) as (o & S & B). inversion S; subst; [exfalso; intuition congruence|exfalso; congruence|].
  assert (Hw' : c_state (e_conn e) = AwaitingHandshake) by exact (without_handshake _ _ _ _ _ _ _ _ s G N fd e Hc Et).
  assert (Hn : handshaken (e_trace e ++ tr)) by (exists t; rewrite Et; match goal with Hp : process _ _ _ _ _ _ _ = _ |- _ => exact (process_handshake _ _ _ _ _ _ _ _ _ _ _ _ _ Hw' Ha Hp) end).
  destruct r; [right; eexists; split; [exact B|now split]|right; eexists; split; [exact B|now split]|now left].
Qed.
Print Assumptions C91_waits_partial.
Definition waits_to_write : Z * (Z * surroundings) :=
  (4, (1, quiet AcceptAgain (Scripts [(0, tls_handshake (-1) 3 false)] [] []))).
(** In full: what a handshake waits for is what the socket is watched for.  Here the TLS
    library says that it waits until it can write. *)
Theorem C91_waits_refuted : forall T, ~ forall linux listener W app cs k0 w0 fd m a pending s s' t eof,
  setting listener k0 -> reached linux listener W app cs T k0 w0 true enough_resources ((fd, (m, a)) :: pending) s -> fd <> listener ->
  Z.testbit m 0 = true -> sc_hs (ar_scripts a) = [(t, tls_handshake (-1) 3 eof)] ->
  handle_connection_events linux W app cs T fd m a s = Ret s' -> (exists e, conn_at W s' fd e) ->
  exists x, mget fd (p_fds (sv_poller W s')) = Some x /\ Z.testbit x 1 = true.
Proof.
  intros T H.
  destruct (by_reached (linux := true) (app := hi) (cs := true) (T := T) (w0 := tt) [at_time 0 [arrives 4]]
    (fun s => fst (poller_poll true (WaitEvents [waits_to_write]) (sv_poller unit s) (sv_kernel unit s)) = Val [waits_to_write] /\
       snd (poller_poll true (WaitEvents [waits_to_write]) (sv_poller unit s) (sv_kernel unit s)) = sv_poller unit s /\
       match handle_connection_events true unit hi true T 4 1 (snd (snd waits_to_write)) s with
       | Ret s' => map fst (sv_conns unit s') = [4] /\ mget 4 (p_fds (sv_poller unit s')) = Some 1
       | _ => False end)) as (s & R & P1 & P2 & Q).
  - vm_compute. repeat split; reflexivity.
  - apply iterations_ok. vm_compute. reflexivity.
  - destruct (handle_connection_events _ _ _ _ _ _ _ _ _) as [s'| | |] eqn:E; try easy. destruct Q as [Q1 Q2].
    pose proof (reached_poll true 3 unit hi true T k_std tt true enough_resources (at_time 0 [waits_to_write]) s
      (Val [waits_to_write]) (sv_poller unit s) R) as R'.
    destruct (H true 3 unit hi true k_std tt 4 1 (snd (snd waits_to_write)) [] s s' 0 false k_std_setting) as (x & X1 & X2); try easy.
    + replace s with (set_poller unit (sv_poller unit s, sv_kernel unit s) s) by (destruct s; reflexivity). apply R'.
      * repeat constructor.
      * repeat constructor.
      * cbn [it_wait at_time]. rewrite (surjective_pairing (poller_poll _ _ _ _)). now rewrite P1, P2.
    + destruct (mget 4 (sv_conns unit s')) as [e|] eqn:Ee; [now exists e|]. exfalso.
      destruct (sv_conns unit s') as [|[k e] l]; [discriminate|]. injection Q1 as -> _. cbn in Ee. discriminate.
    + rewrite Q2 in X1. injection X1 as <-. discriminate.
Qed.
Print Assumptions C91_waits_refuted.
(** A socket that can be written to while the handshake waits: nothing happens. *)
Example C91_case : forall T, exists s s', reached true 3 unit hi true T k_std tt true enough_resources [] s /\
  map (fun x => (fst x, e_trace (snd x))) (sv_conns unit s) = [(4, [])] /\ mget 4 (k_watch (sv_kernel unit s)) = Some 1 /\
  iterate true 3 unit hi true T (at_time 0 [arrives 5]) s = Ret s' /\ mget 4 (sv_conns unit s') = mget 4 (sv_conns unit s).
Proof.
  intros T. destruct (by_reached (linux := true) (app := hi) (cs := true) (T := T) (w0 := tt) [at_time 0 [arrives 4]; at_time 0 [waits_to_write]]
    (fun s => map (fun x => (fst x, e_trace (snd x))) (sv_conns unit s) = [(4, [])] /\ mget 4 (k_watch (sv_kernel unit s)) = Some 1 /\
       match iterate true 3 unit hi true T (at_time 0 [arrives 5]) s with Ret s' => mget 4 (sv_conns unit s') = mget 4 (sv_conns unit s) | _ => False end))
    as (s & R & P1 & P2 & Q).
  - vm_compute. repeat split; reflexivity.
  - apply iterations_ok. vm_compute. reflexivity.
  - exists s. destruct (iterate _ _ _ _ _ _ _ _) as [s'| | |]; try easy. now exists s'.
Qed.

(** ** C92 *)
Theorem C92_listens_partial : forall linux listener W app cs T k0 w0 A pending s,
  setting listener k0 -> reached linux listener W app cs T k0 w0 true A pending s ->
  mget listener (p_fds (sv_poller W s)) = Some 1 /\ (linux = true -> mget listener (k_watch (sv_kernel W s)) = Some 1).
Proof.
  intros linux listener W app cs T k0 w0 A pending s [H1 H2] H. pose proof (reached_listens _ _ _ _ _ _ _ _ H1 H2 _ _ _ H) as L. split; [exact L|].
  intros Hl. destruct (reached_good _ _ _ _ _ _ _ _ H1 H2 _ _ _ _ H) as (G & _). destruct (g_stale _ _ _ _ _ _ _ _ _ G) as [_ S2]. now rewrite (S2 Hl), L.
Qed.
Print Assumptions C92_listens_partial.
Theorem C92_started_partial : forall linux listener W app cs T k0 w0 stopped its b s,
  setting listener k0 -> start linux listener W app cs T true true stopped k0 w0 its = Ret (b, s) -> Forall iteration_ok its ->
  mget listener (p_fds (sv_poller W s)) = Some 1 /\ (linux = true -> mget listener (k_watch (sv_kernel W s)) = Some 1).
Proof.
  intros linux listener W app cs T k0 w0 stopped its b s Hs E Hok. eapply C92_listens_partial; [exact Hs|]. eapply (start_reached _ _ _ _ _ _ _ _ true true); [exact E|exact Hok|].
  apply Forall_forall. intros x _. exact I.
Qed.
Print Assumptions C92_started_partial.
(** If the listener cannot be registered, the server runs all the same, and whatever happens
    no connection is ever accepted and no handler called. *)
Theorem C92_deaf : forall listener W app cs T k0 w0 stopped its, setting listener k0 ->
  exists b s, start true listener W app cs T true false stopped k0 w0 its = Ret (b, s) /\
    sv_conns W s = [] /\ sv_world W s = w0 /\ k_objects (sv_kernel W s) = S (k_objects k0).
Proof. intros listener W app cs T k0 w0 stopped its [H1 H2]. now apply deaf_start. Qed.
Print Assumptions C92_deaf.
(** In full: a server that is running listens. *)
Theorem C92_listens_refuted : forall T, ~ forall linux listener W app cs k0 w0 ok its s, setting listener k0 ->
  start linux listener W app cs T true ok None k0 w0 its = Ret (false, s) ->
  mget listener (p_fds (sv_poller W s)) = Some 1.
Proof.
  intros T H. specialize (H true 3 unit hi true k_std tt false []).
  assert (E : exists s, start true 3 unit hi true T true false None k_std tt [] = Ret (false, s) /\ p_fds (sv_poller unit s) = []) by (vm_compute; eauto).
  destruct E as (s & E & K). specialize (H s k_std_setting E). rewrite K in H. discriminate H.
Qed.
Print Assumptions C92_listens_refuted.
Example C92_case : forall T, exists s, reached true 3 unit hi true T k_std tt true enough_resources [] s /\
  map fst (sv_conns unit s) = [5; 4] /\ map fst (p_fds (sv_poller unit s)) = [5; 4; 3].
Proof. intros T. run some_run. Qed.

(** ** C93 *)
Theorem C93_handshake : forall linux listener W app cs T k0 w0 ok A pending s clock fd e,
  setting listener k0 -> reached linux listener W app cs T k0 w0 ok A pending s -> ~ handshaken (e_trace e) ->
  (conn_at W (reap_idle_connections linux W clock s) fd e <-> conn_at W s fd e /\ clock fd - e_born e <= 5000000000).
Proof.
  intros linux listener W app cs T k0 w0 ok A pending s clock fd e Hs H Hh. rewrite (C49_reaped _ _ _ _ _ _ _ _ _ _ _ _ clock fd e Hs H).
  destruct Hs as [H1 H2]. destruct (reached_good _ _ _ _ _ _ _ _ H1 H2 _ _ _ _ H) as (G & N & _).
  split; intros [Hc K]; (split; [exact Hc|]); pose proof (not_handshaken _ _ _ _ _ _ _ _ s G N fd e Hc Hh) as Et; rewrite Et in *; exact K.
Qed.
Print Assumptions C93_handshake.
(** What puts off the end of a connection: the handshake, once; reads, of at least an octet
    each; and writes, of which there are none before the preface is complete. *)
Theorem C93_signs : forall linux listener W app cs T k0 w0 ok A pending s e,
  setting listener k0 -> reached linux listener W app cs T k0 w0 ok A pending s -> anyone W s e ->
  Z.of_nat (signs (e_trace e)) <= 1 + lenZ (received (e_trace e)) + Z.of_nat (writes (e_trace e)) /\
  (lenZ (received (e_trace e)) < 24 -> writes (e_trace e) = 0%nat).
Proof.
  intros linux listener W app cs T k0 w0 ok A pending s e Hs H Ha.
  destruct (C50_own_life _ _ _ _ _ _ _ _ _ _ _ _ e Hs H Ha) as [w L]. destruct (session_young _ _ _ _ _ _ _ _ _ _ _ _ L) as (_ & _ & Y1 & Y2). auto.
Qed.
Print Assumptions C93_signs.
(** If no iteration takes longer than [d], a client that does not complete its preface is
    gone after 125 s and 24 d. *)
Theorem C93_deadline : forall linux listener W app cs T k0 w0 made ok stopped its b s d clock fd e,
  setting listener k0 -> start linux listener W app cs T made ok stopped k0 w0 its = Ret (b, s) ->
  Forall iteration_ok its -> 0 <= d -> Forall (in_time d) its ->
  conn_at W (reap_idle_connections linux W clock s) fd e -> lenZ (received (e_trace e)) < 24 ->
  clock fd - e_born e <= 5000000000 + 24 * (5000000000 + d).
Proof.
  intros linux listener W app cs T k0 w0 made ok stopped its b s d clock fd e Hs E Hok Hd Ht Hc Hr. destruct (proj1 Hs, proj2 Hs) as [H1 H2].
  assert (R : reached linux listener W app cs T k0 w0 ok (fun _ => True) [] s) by (eapply start_reached; [exact E|exact Hok|apply Forall_forall; easy]).
  apply (C49_reaped _ _ _ _ _ _ _ _ _ _ _ _ clock fd e Hs R) in Hc as [Hc Hi].
  pose proof (start_regular _ _ _ _ _ _ _ _ H1 H2 d made ok stopped its b s Hd E Hok Ht e (or_introl (ex_intro _ fd Hc))) as G. unfold regular in G. apply (gaps_signs W app w0) in G.
  destruct (C93_signs _ _ _ _ _ _ _ _ _ _ _ _ e Hs R (or_introl (ex_intro _ fd Hc))) as [S1 S2]. specialize (S2 Hr). unfold IDLE in G.
  assert (Sg : Z.of_nat (signs (e_trace e)) <= 24) by lia.
  assert ((5000000000 + d) * Z.of_nat (signs (e_trace e)) <= (5000000000 + d) * 24) by (apply Z.mul_le_mono_nonneg_l; lia). lia.
Qed.
Print Assumptions C93_deadline.
(** A client sends its preface octet by octet, one every 5 s. *)
Definition drip (n : nat) : iteration :=
  let t := 5000000000 * Z.of_nat n in
  Iteration (fun _ => t) (WaitEvents [(4, (1, Around AcceptAgain true t (Scripts [(t, HsOk)] [(t, RdData [nth n rfc_preface 0]); (t, RdErr WantReadOrWrite)] []) []))]) [].
Definition slowly : list iteration := at_time 0 [arrives 4] :: map drip (seq 0 23).
Lemma in_timeb d l : forallb (fun x : Z * iteration => let (t, it) := x in
    match it_wait it with
    | WaitEvents evs => forallb (fun x => (t <=? ar_now (snd (snd x))) && (ar_now (snd (snd x)) <=? t + d) &&
                                          forallb (fun u => (t <=? u) && (u <=? t + d)) (script_times (ar_scripts (snd (snd x))))) evs
    | _ => true end) l = true -> Forall (fun x => forall fd, fst x <= it_clock (snd x) fd <= fst x + d) l -> Forall (in_time d) (map snd l).
Proof.
  intros H Hc. rewrite forallb_forall in H. apply Forall_map. rewrite Forall_forall in *. intros [t it] K. specialize (H _ K). specialize (Hc _ K). cbn [fst snd] in *.
  exists t. split; [exact Hc|]. destruct (it_wait it) as [| |evs]; auto. apply Forall_forall. intros x Kx. rewrite forallb_forall in H. specialize (H x Kx).
  apply andb_true_iff in H as [H H3]. apply andb_true_iff in H as [H1 H2]. split; [lia|]. apply Forall_forall. intros u Ku. rewrite forallb_forall in H3. specialize (H3 u Ku). lia.
Qed.
Lemma slowly_ok : Forall iteration_ok slowly /\ Forall enough_resources slowly /\ Forall (in_time 0) slowly.
Proof.
  assert (K : Forall iteration_ok slowly /\ Forall enough_resources slowly) by (apply iterations_ok; vm_compute; reflexivity).
  split; [apply K|]. split; [apply K|].
  change slowly with (map snd ((0, at_time 0 [arrives 4]) :: map (fun n => (5000000000 * Z.of_nat n, drip n)) (seq 0 23))).
  apply in_timeb; [vm_compute; reflexivity|]. constructor; [cbn; lia|]. apply Forall_map, Forall_forall. intros n _ fd. cbn [fst snd drip it_clock]. lia.
Qed.
Example C93_case : forall linux T, exists b s,
  start linux 3 unit hi true T true true None k_std tt slowly = Ret (b, s) /\
  Forall iteration_ok slowly /\ Forall (in_time 0) slowly /\
  map (fun x => lenZ (received (e_trace (snd x)))) (sv_conns unit s) = [23] /\
  map (fun x => signs (e_trace (snd x))) (sv_conns unit s) = [24%nat] /\
  map fst (sv_conns unit (reap_idle_connections linux unit (fun _ => 115000000000) s)) = [4] /\
  map fst (sv_conns unit (reap_idle_connections linux unit (fun _ => 115000000001) s)) = [].
Proof.
  intros linux T. destruct slowly_ok as (K1 & _ & K3).
  destruct (by_start (linux := linux) (app := hi) (cs := true) (T := T) (its := slowly) (w0 := tt)
    (fun _ s => map (fun x => lenZ (received (e_trace (snd x)))) (sv_conns unit s) = [23] /\
      map (fun x => signs (e_trace (snd x))) (sv_conns unit s) = [24%nat] /\
      map fst (sv_conns unit (reap_idle_connections linux unit (fun _ => 115000000000) s)) = [4] /\
      map fst (sv_conns unit (reap_idle_connections linux unit (fun _ => 115000000001) s)) = [])) as (b & s & E & P).
  - destruct linux; vm_compute; repeat split; reflexivity.
  - exists b, s. tauto.
Qed.
(** Before its handshake is done, a client is gone 5 s after it came. *)
Example C93_handshake_case : forall linux T, exists s, reached linux 3 unit hi true T k_std tt true enough_resources [] s /\
  map (fun x => (fst x, e_trace (snd x))) (sv_conns unit s) = [(4, [])] /\
  map fst (sv_conns unit (reap_idle_connections linux unit (fun _ => 5000000000) s)) = [4] /\
  map fst (sv_conns unit (reap_idle_connections linux unit (fun _ => 5000000001) s)) = [].
Proof.
  intros [] T; run [at_time 0 [arrives 4]; at_time 4000000000 [(4, (1, quiet AcceptAgain (Scripts [(4000000000, HsErr WantReadOrWrite)] [] [])))]].
Qed.

(** ** C94 *)
(** After a write that failed (to block is not to fail) no handler is called any more. *)
Theorem C94_no_more_requests_partial : forall W app cs T others t0 w0 A r c tr w a t o k x rest,
  session W app cs T others t0 w0 A r c tr w -> tr = a ++ EvWrite t o k (Error x) :: rest -> x <> WantReadOrWrite ->
  requests rest = [] /\ logged rest = [].
Proof. exact failed_write. Qed.
Print Assumptions C94_no_more_requests_partial.
(** The connection is not closed, though: the server waits until it can write again, with
    the output as before, whatever the failure was. *)
Theorem C94_kept : forall W app cs T s c w now x wr,
  c_state c <> AwaitingHandshake -> c_wbuf c <> [] -> sc_wr s = (now, WrErr x) :: wr ->
  exists c', process W app cs T s c w = Ret (WantWrite, c', [EvWrite now (c_wbuf c) [] (Error x)], w) /\ c_wbuf c' = c_wbuf c.
Proof.
  intros W app cs T s c w now x wr Hs Hw Hr. unfold process. cbn [Nat.add internal_process]. rewrite Hr.
  replace (match c_state c with AwaitingHandshake => handle_handshake (sc_hs s) c | _ => (None, c, [], sc_hs s) end) with (@None result, c, @nil event, sc_hs s) by (destruct (c_state c); easy).
  unfold flush_write_buffer. destruct c as [st rb wb d e l]. cbn [c_wbuf c_state] in *. destruct wb as [|y b]; [easy|].
  destruct x; cbn [set_state c_wbuf obind Datatypes.app]; eexists; split; reflexivity.
Qed.
Print Assumptions C94_kept.
Definition failing (fd : Z) (o : bytes) : Z * (Z * surroundings) :=
  (fd, (5, quiet AcceptAgain (Scripts [(0, HsOk)] (match o with [] => [] | _ => [octets o] end) [(0, WrErr TransportProtocolError)]))).
(** In full: it is closed. *)
Theorem C94_closed_refuted : forall T, ~ forall linux listener W app cs k0 w0 pending s fd e t o k,
  setting listener k0 -> reached linux listener W app cs T k0 w0 true enough_resources pending s -> conn_at W s fd e ->
  ~ In (EvWrite t o k (Error TransportProtocolError)) (e_trace e).
Proof.
  intros T H.
  destruct (by_reached (linux := true) (app := hi) (cs := true) (T := T) (w0 := tt) [at_time 0 [arrives 4]; at_time 0 [failing 4 (w_hello ++ w_get)]; at_time 0 [failing 4 []]]
    (fun s => match sv_conns unit s with
              | [(4, e)] => match e_trace e with [EvHandshake _; EvRead _ _; EvQueue _; EvQueue _; EvWrite t o k (Error x); EvWrite _ _ _ _] => x = TransportProtocolError | _ => False end
              | _ => False end)) as (s & R & P).
  - vm_compute. reflexivity.
  - apply iterations_ok. vm_compute. reflexivity.
  - destruct (sv_conns unit s) as [|[fd e] l] eqn:Ec; [easy|]. assert (Hc : conn_at unit s fd e) by (unfold conn_at; rewrite Ec; cbn; now rewrite Z.eqb_refl).
    assert (Hx : exists t o k, In (EvWrite t o k (Error TransportProtocolError)) (e_trace e)).
    { repeat (match type of P with context [match ?x with _ => _ end] => destruct x; try easy end). subst. eexists _, _, _. cbn. auto 10. }
    destruct Hx as (t & o & k & Hx). exact (H _ _ _ _ _ _ _ _ _ _ _ _ _ _ k_std_setting R Hc Hx).
Qed.
Print Assumptions C94_closed_refuted.

Example C94_case : forall T cs, exists c tr w, session unit hi cs T eq 0 tt any (Some WantWrite) c tr w /\
  lenZ (received tr) = 55 /\ lenZ (requests tr) = 1 /\
  exists a t o k rest, tr = a ++ EvWrite t o k (Error TransportProtocolError) :: rest /\ lenZ rest = 1 /\ lenZ (c_wbuf c) = 44.
Proof.
  intros T cs. apply (by_run hi cs T eq 0 tt any [
    Scripts [(0, HsOk)] [octets (w_hello ++ w_get); octets w_get] [(0, WrOk 1000); (0, WrErr TransportProtocolError)];
    Scripts [] [octets w_get] [(0, WrErr WriteError)]]); [scripts_ok|apply Forall_any|].
  destruct cs; vm_compute; do 3 (split; [reflexivity|]); eexists [_; _; _; _; _; _; _; _; _; _], _, _, _, _; (split; [reflexivity|]); split; reflexivity.
Qed.

(** ** C95.  SSL_write is asked for a negative number of octets only by mistake, and refuses
    (SSL_R_BAD_LENGTH); otherwise it takes some of them, or fails. *)
Definition ssl_write_contract (num ret e : Z) : Prop := (num < 0 -> ret = -1 /\ e = 1) /\ (0 <= num -> ret <= num).
(** Less than 2 GiB: they are offered as they are, and taken if the library takes them. *)
Theorem C95_any_length_partial : forall size ret e, 0 < size < 2147483648 -> ssl_write_contract (to_int size) ret e ->
  to_int size = size /\ (tls_write size ret e = WrOk size <-> ret = size).
Proof.
  intros size ret e Hs [_ Hc]. rewrite to_int_small in * by lia. split; [reflexivity|]. unfold tls_write. rewrite to_int_small by lia.
  destruct (Z.ltb_spec ret 0) as [L|L].
  - split; [|lia]. repeat match goal with |- context [if ?b then _ else _] => destruct b end; discriminate.
  - destruct (Z.eqb_spec ret size) as [->|N]; cbn [negb]; split; easy.
Qed.
Print Assumptions C95_any_length_partial.
(** From there to 4 GiB every attempt fails as if the client had violated the protocol; by
    C94 the output stays where it is, and the connection waits until it is idle. *)
Theorem C95_too_long : forall size ret e, 2147483648 <= size < 4294967296 -> ssl_write_contract (to_int size) ret e ->
  tls_write size ret e = WrErr TransportProtocolError.
Proof. intros size ret e Hs [Hc _]. destruct (Hc (to_int_large _ Hs)) as [-> ->]. reflexivity. Qed.
Print Assumptions C95_too_long.
Theorem C95_any_length_refuted : ~ forall size, 0 < size -> exists ret e k, ssl_write_contract (to_int size) ret e /\ tls_write size ret e = WrOk k.
Proof.
  intros H. destruct (H 2147483648) as (ret & e & k & Hc & K); [lia|]. rewrite (C95_too_long 2147483648 ret e ltac:(lia) Hc) in K. discriminate.
Qed.
Print Assumptions C95_any_length_refuted.
Example C95_case : ssl_write_contract (to_int 100000) 100000 0 /\ tls_write 100000 100000 0 = WrOk 100000 /\
  ssl_write_contract (to_int 2147483647) 2147483647 0 /\ tls_write 2147483647 2147483647 0 = WrOk 2147483647 /\
  to_int 3000000000 = -1294967296 /\ ssl_write_contract (to_int 3000000000) (-1) 1.
Proof.
  change (to_int 100000) with 100000. change (to_int 2147483647) with 2147483647. change (to_int 3000000000) with (-1294967296).
  unfold ssl_write_contract. repeat split; try reflexivity; lia.
Qed.
