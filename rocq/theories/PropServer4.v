(** C97 and C98: reads that fail, and servers that are started again. *)
From Verif Require Import Base BaseLemmas Huffman Http Conn SpecConn ConnLemmas ConnBasic ConnTerm ConnSpec ConnWit
  Poller Server SpecServer ServerProofs ServerReach SocketProofs ServerHistory Transport SpecEarly ServerMore WaitProofs
  ServerAgain AgainProofs PropConn PropServer PropServer2 PropServer3.

(** ** C97 *)
(** The end of the stream and violations of the TLS protocol: the connection is gone. *)
Theorem C97_closed_partial : forall linux listener W app cs T k0 w0 ok A pending s fd e x,
  setting listener k0 -> reached linux listener W app cs T k0 w0 ok A pending s -> conn_at W s fd e ->
  In (EvReadError x) (e_trace e) -> x = WantReadOrWrite \/ x = WriteError \/ x = OtherError.
Proof.
  intros linux listener W app cs T k0 w0 ok A pending s fd e x Hs H Hc Hi.
  destruct (C50_own_life _ _ _ _ _ _ _ _ _ _ _ _ e Hs H (or_introl (ex_intro _ fd Hc))) as [w L].
  destruct (reached_good _ _ _ _ _ _ _ _ (proj1 Hs) (proj2 Hs) _ _ _ _ H) as (_ & N & _). specialize (N fd e Hc).
  apply in_split in Hi as (a & b & E). pose proof (C45_end_of_stream _ _ _ _ _ _ _ _ _ _ _ _ a (EvReadError x) b L E) as K.
  destruct x; auto; destruct (K eq_refl) as [K' _]; contradiction.
Qed.
Print Assumptions C97_closed_partial.
(** Other failures: while a connection with no output waits for the client they change
    nothing at all, so that it waits on. *)
Theorem C97_kept : forall W app cs T others t0 w0 A c tr w s t rd,
  session W app cs T others t0 w0 A (Some WantRead) c tr w -> (exists t, In (EvHandshake t) tr) -> c_wbuf c = [] ->
  sc_rd s = (t, RdErr OtherError) :: rd -> process W app cs T s c w = Ret (WantRead, c, [EvReadError OtherError], w).
Proof. exact other_error. Qed.
Print Assumptions C97_kept.
(** So it is with the server: the connection is there as before, until it is idle too long.
    (Its descriptor is readable all the while, and the server does not sleep.) *)
Theorem C97_still_there : forall linux listener W app cs T k0 w0 s it evs s' fd e m a t rd,
  setting listener k0 -> reached linux listener W app cs T k0 w0 true enough_resources [] s ->
  iteration_ok it -> it_wait it = WaitEvents evs -> NoDup (map fst evs) -> (linux = true -> lenZ evs <= p_size (sv_poller W s)) ->
  iterate linux listener W app cs T it s = Ret s' ->
  conn_at W s fd e -> (exists t, In (EvHandshake t) (e_trace e)) -> e_result e = Some WantRead -> c_wbuf (e_conn e) = [] ->
  it_clock it fd - last_success (e_born e) (e_trace e) <= 5000000000 ->
  In (fd, (m, a)) evs -> Z.testbit m 0 = true -> Z.testbit m 3 = false -> Z.testbit m 4 = false -> sc_rd (ar_scripts a) = (t, RdErr OtherError) :: rd ->
  conn_at W s' fd (Entry (e_socket e) (e_born e) (e_conn e) (Some WantRead) (e_trace e ++ [EvReadError OtherError])).
Proof.
  intros linux listener W app cs T k0 w0 s it evs s' fd e m a t rd Hs H Hok Hw Hd Hz E Hc Hh Hr Hb Hi Ki M0 M3 M4 Ha.
  destruct (reached_good _ _ _ _ _ _ _ _ (proj1 Hs) (proj2 Hs) _ _ _ _ H) as (G & _ & _).
  pose proof (proj1 (g_lives _ _ _ _ _ _ _ _ _ G) fd e Hc) as L. red in L. rewrite Hr in L.
  destruct (C77_served _ _ _ _ _ _ _ _ s it evs s' fd e Hs H Hok Hw Hd Hz E Hc) as (_ & K2 & _).
  destruct (K2 Hi m a Ki) as (o & S & B). inversion S as [|X1|w r c tr w' X1 X2 X3 P]; subst; [exfalso; intuition congruence|exfalso; congruence|].
  assert (L' : session W app cs T (fun _ _ => True) (e_born e) w0 (fun _ => True) (Some WantRead) (e_conn e) (e_trace e) w) by (eapply session_others; [exact L|exact I]).
  rewrite (other_error _ _ _ _ _ _ _ _ _ _ _ _ _ _ L' Hh Hb Ha) in P. injection P as <- <- <- <-. exact B.
Qed.
Print Assumptions C97_still_there.
Definition fails (fd : Z) (x : transport_error) : Z * (Z * surroundings) := (fd, (1, quiet AcceptAgain (deliver [(0, RdErr x)]))).
(** In full: whatever the failure, the connection is gone. *)
Theorem C97_closed_refuted : forall T, ~ forall linux listener W app cs k0 w0 pending s fd e x,
  setting listener k0 -> reached linux listener W app cs T k0 w0 true enough_resources pending s -> conn_at W s fd e ->
  In (EvReadError x) (e_trace e) -> x = WantReadOrWrite.
Proof.
  intros T H.
  destruct (by_reached (linux := true) (app := hi) (cs := true) (T := T) (w0 := tt) [at_time 0 [arrives 4]; at_time 0 [sends 4 (w_hello ++ w_get)]; at_time 0 [fails 4 OtherError]]
    (fun s => match mget 4 (sv_conns unit s) with Some e => existsb (fun x => match x with EvReadError OtherError => true | _ => false end) (e_trace e) = true | None => False end)) as (s & R & P).
  - vm_compute. reflexivity.
  - apply iterations_ok. vm_compute. reflexivity.
  - destruct (mget 4 (sv_conns unit s)) as [e|] eqn:Ec; [|easy]. apply existsb_exists in P as (ev & Hi & P).
    assert (X : ev = EvReadError OtherError) by (destruct ev as [ | | |x| | | | | ]; try easy; destruct x; easy). subst ev. discriminate (H _ _ _ _ _ _ _ _ _ _ _ _ k_std_setting R Ec Hi).
Qed.
Print Assumptions C97_closed_refuted.
(** Two clients, both served; then a read from the first fails for "other" reasons, twice,
    and the second closes the connection. *)
Example C97_case : forall linux T, exists s, reached linux 3 unit hi true T k_std tt true enough_resources [] s /\
  map (fun x => (fst x, (e_result (snd x), (lenZ (c_wbuf (e_conn (snd x))), (lenZ (requests (e_trace (snd x))),
    lenZ (filter (fun x => match x with EvReadError OtherError => true | _ => false end) (e_trace (snd x)))))))) (sv_conns unit s) = [(4, (Some WantRead, (0, (1, 2))))] /\
  map (fun e => lenZ (requests (e_trace e))) (sv_gone unit s) = [1].
Proof.
  intros [] T; run [at_time 0 [arrives 4]; at_time 0 [arrives 5; sends 4 (w_hello ++ w_get)]; at_time 0 [sends 5 (w_hello ++ w_get); fails 4 OtherError];
    at_time 0 [fails 4 OtherError; fails 5 ConnectionClosed]].
Qed.

(** ** C98 *)
(** With no connection left, and unless stop was called, the next call of start is like the
    first: the descriptors are those from before, and all that was proved holds again. *)
Theorem C98_again_partial : forall linux listener W app cs T k0 w0 ok A pending s listener' made ok' its,
  setting listener k0 -> reached linux listener W app cs T k0 w0 ok A pending s ->
  sv_conns W s = [] -> sv_stop W s = None -> 0 <= listener' -> mget listener' (k_open k0) = None ->
  exists k, setting listener' k /\ (forall fd, mget fd (k_open k) = mget fd (k_open k0)) /\
  start_on linux W app cs T listener' made ok' (finish W listener s) its =
  start linux listener' W app cs T made ok' None k (sv_world W s) its.
Proof.
  intros linux listener W app cs T k0 w0 ok A pending s listener' made ok' its Hs H Hc Hn Hl Ho.
  assert (K : forall fd, mget fd (k_open (sv_kernel W (finish W listener s))) = mget fd (k_open k0)).
  { intros fd. pose proof (fun n => finish_open _ _ _ _ _ _ _ _ _ _ _ _ fd n Hs H) as K.
    assert (Hx : forall n, ~ exists e, conn_at W s fd e /\ e_socket e = n) by (intros n (e & E & _); unfold conn_at in E; now rewrite Hc in E).
    destruct (mget fd (k_open k0)) as [n|] eqn:E; [apply K; now left|].
    destruct (mget fd (k_open (sv_kernel W (finish W listener s)))) as [n|] eqn:E'; [|reflexivity].
    destruct (proj1 (K n) eq_refl) as [E2|E2]; [discriminate|now apply Hx in E2]. }
  exists (since_now (sv_kernel W (finish W listener s))). split; [|split; [exact K|]].
  - eapply finish_setting; eauto. now rewrite K.
  - unfold start_on, start. cbn [finish sv_conns sv_stop sv_world]. now rewrite Hc, Hn.
Qed.
Print Assumptions C98_again_partial.
(** What is there when start has ended: the listening socket is closed, the connections
    are not. *)
Theorem C98_left_open : forall linux listener W app cs T k0 w0 ok A pending s,
  setting listener k0 -> reached linux listener W app cs T k0 w0 ok A pending s ->
  (forall fd n, mget fd (k_open (sv_kernel W (finish W listener s))) = Some n <->
     mget fd (k_open k0) = Some n \/ exists e, conn_at W s fd e /\ e_socket e = n) /\
  k_closed (sv_kernel W (finish W listener s)) = k_closed (sv_kernel W s) ++ [Some (k_objects k0)] /\
  k_watch (sv_kernel W (finish W listener s)) = [].
Proof.
  intros linux listener W app cs T k0 w0 ok A pending s Hs H. destruct (finish_closes _ _ _ _ _ _ _ _ _ _ _ _ Hs H) as [K1 K2].
  split; [|now split]. intros fd n. eapply finish_open; eauto.
Qed.
Print Assumptions C98_left_open.
(** After stop, start returns at once for ever after: nothing is accepted, nothing served. *)
Theorem C98_stopped : forall linux W app cs T listener ok s its r,
  sv_stop W s = Some r ->
  exists s', start_on linux W app cs T listener true ok s its = Ret (true, s') /\
    sv_conns W s' = sv_conns W s /\ sv_world W s' = sv_world W s /\ sv_gone W s' = [] /\ sv_stop W s' = Some r.
Proof.
  intros linux W app cs T listener ok s its r H. unfold start_on. cbn [negb].
  destruct its; cbn [loop]; unfold set, set_poller; cbn [sv_stop]; rewrite H; (eexists; split; [reflexivity|]); now cbn [sv_conns sv_world sv_gone sv_stop].
Qed.
Print Assumptions C98_stopped.
(** Connections left behind (by an exception, say): in the next call of start they are not
    served.  They stay as they are until they have been idle for too long. *)
Theorem C98_orphans : forall linux listener W app cs T k0 w0 ok A pending s listener' made ok' its b s' fd e,
  setting listener k0 -> reached linux listener W app cs T k0 w0 ok A pending s -> conn_at W s fd e ->
  mget listener' (k_open (sv_kernel W (finish W listener s))) = None ->
  start_on linux W app cs T listener' made ok' (finish W listener s) its = Ret (b, s') ->
  conn_at W s' fd e \/
  (In e (sv_gone W s') /\ exists it, In it its /\ it_clock it fd - last_success (e_born e) (e_trace e) > 5000000000).
Proof.
  intros linux listener W app cs T k0 w0 ok A pending s listener' made ok' its b s' fd e Hs H Hc Hl E.
  destruct (reached_good _ _ _ _ _ _ _ _ (proj1 Hs) (proj2 Hs) _ _ _ _ H) as (G & _ & _). destruct (g_limit _ _ _ _ _ _ _ _ _ G) as (_ & M & _).
  destruct (g_desc _ _ _ _ _ _ _ _ _ G) as [D1 D2]. destruct (D1 fd e Hc) as (_ & D & _).
  assert (Ho : mget fd (k_open (sv_kernel W s)) <> None) by (rewrite (proj2 (D2 fd (e_socket e))); [discriminate|right; right; now exists e]).
  destruct (orphans _ _ _ _ _ _ _ _ _ _ _ _ _ fd e Hc M D Ho Hl E) as [K|(K & it & Hi & Ht)]; [now left|right]. split; [exact K|]. exists it. split; [exact Hi|].
  exact (proj1 (timed_out_iff _ _ _ _ _ _ _ _ _ _ _ _ (it_clock it fd) (proj1 (g_lives _ _ _ _ _ _ _ _ _ G) fd e Hc)) Ht).
Qed.
Print Assumptions C98_orphans.
(** In full: whatever the state in which start ended, the next call is like a first one. *)
Theorem C98_again_refuted : forall T, ~ forall linux listener W app cs k0 w0 pending s,
  setting listener k0 -> reached linux listener W app cs T k0 w0 true enough_resources pending s ->
  exists k, setting listener k /\ forall its,
    start_on linux W app cs T listener true true (finish W listener s) its = start linux listener W app cs T true true None k (sv_world W s) its.
Proof.
  intros T H. destruct (H true 3 unit hi true k_std tt [] _ k_std_setting (reached_stop _ _ _ _ _ _ _ _ _ _ _ _ StopSignal (reached_start _ _ _ _ _ _ _ _ _ _ None))) as (k & _ & K).
  specialize (K []). unfold start_on, start in K. cbn [negb loop finish sv_stop stop set set_poller] in K. discriminate.
Qed.
Print Assumptions C98_again_refuted.
(** A client is served, then accept fails and start throws.  Started again, the server
    serves a second client, while the first client's next request is not looked at; after
    more than five seconds its socket is closed. *)
Definition accept_fails : Z * (Z * surroundings) := (3, (1, quiet AcceptFails nothing)).
Definition arrives_later (fd : Z) : Z * (Z * surroundings) := (6, (1, quiet (AcceptFd fd true) nothing)).
Definition second_run : list iteration :=
  [at_time 0 [sends 4 w_get; arrives_later 5]; at_time 0 [sends 4 w_get; sends 5 (w_hello ++ w_get)]].
Example C98_case : forall linux T, exists s, reached linux 3 unit hi true T k_std tt true enough_resources [] s /\
  iterate linux 3 unit hi true T (at_time 0 [accept_fails]) s = Throw /\
  map fst (k_open (sv_kernel unit (finish unit 3 s))) = [4; 0; 1; 2] /\
  match start_on linux unit hi true T 6 true true (finish unit 3 s) second_run with
  | Ret (b, s') => b = false /\ map (fun x => (fst x, lenZ (requests (e_trace (snd x))))) (sv_conns unit s') = [(5, 1); (4, 1)]
  | _ => False
  end /\
  match start_on linux unit hi true T 6 true true (finish unit 3 s) (second_run ++ [at_time 5000000001 []]) with
  | Ret (b, s') => map (fun e => lenZ (requests (e_trace e))) (sv_gone unit s') = [1; 1] /\ map fst (k_open (sv_kernel unit s')) = [6; 0; 1; 2]
  | _ => False
  end.
Proof. intros [] T; run [at_time 0 [arrives 4]; at_time 0 [sends 4 (w_hello ++ w_get)]]. Qed.
