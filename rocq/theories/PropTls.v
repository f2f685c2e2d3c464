(** TLS connections (C88) and the library's objects (C89). *)
From Verif Require Import Base BaseLemmas Huffman Http Conn SpecConn ConnLemmas ConnBasic ConnTerm ConnSpec ConnWit
  Poller Server SpecServer ServerProofs ServerReach SocketFd Transport SocketProofs PropServer Tls SpecTls TlsProofs TlsLife TlsLifeProofs.

(** ** C88.  A TLS connection is given up only for a reason of its own.

    [calls l []]: what the transports report when the calls of [l] are made one after the
    other, for whichever connections, by a thread with nothing in its error queue.

    Missing: it holds as long as nothing can be left of earlier failures.  The connections
    share the error queue and only a handshake empties it. *)
Theorem C88_own_reason_partial : forall l h h1 n ev h2,
  Forall (fun x => sane (snd x)) l -> shows (fst (calls l [])) h -> h = h1 ++ (n, ev) :: h2 -> gives_up ev = true ->
  exists l1 c l2, l = l1 ++ (n, c) :: l2 /\ shows (fst (calls l1 [])) h1 /\
    (clean l1 \/ empties c -> deserved c = Over).
Proof.
  intros l h h1 n ev h2 Hs Hh E Hg. destruct (shows_split _ _ Hh _ _ _ _ E Hg) as (r1 & r & r2 & Er & H1 & Ho).
  destruct (calls_split _ _ _ _ _ _ Er) as (l1 & c & l2 & -> & -> & ->). exists l1, c, l2. split; [reflexivity|]. split; [exact H1|].
  intros Hc. rewrite <- Ho. symmetry. apply call_right.
  - apply Forall_app in Hs as [_ Hs]. inversion Hs; subst. assumption.
  - destruct Hc as [Hc|Hc]; [left; now apply clean_queue|now right].
Qed.
Print Assumptions C88_own_reason_partial.

(** Then every call is reported as it deserves, not only the fatal ones. *)
Theorem C88_right : forall l1 n c l2, sane c -> clean l1 \/ empties c ->
  exists r, nth_error (fst (calls (l1 ++ (n, c) :: l2) [])) (length l1) = Some (n, r) /\ said r = deserved c.
Proof.
  intros l1 n c l2 Hs Hc. eexists. split; [apply nth_report|]. apply call_right; [exact Hs|].
  destruct Hc as [Hc|Hc]; [left; now apply clean_queue|now right].
Qed.
Print Assumptions C88_right.

(** After a failed read or write, and until the next handshake, whoever would have to wait
    is told that the protocol was violated: no connection survives that. *)
Theorem C88_wrong : forall l1 n c l2 b, sane c -> left_over l1 -> proper l1 -> ~ empties c -> own_outcome c = TlsWants b ->
  nth_error (fst (calls (l1 ++ (n, c) :: l2) [])) (length l1) =
  Some (n, match c with CallWrite _ _ _ _ _ => RepWrite (WrErr TransportProtocolError) | _ => RepRead (RdErr TransportProtocolError) end).
Proof.
  intros l1 n c l2 b Hs Hl Hp He Ho. rewrite nth_report. do 2 f_equal. apply (call_wrong c _ b); auto.
  - now apply left_queue.
  - intros e Hi. destruct (calls_origin _ _ _ Hi) as [[]|(x & e0 & es & H1 & H2 & H3)]. exact (Hp x e0 es e H1 H2 H3).
  - apply calls_bounded. cbn. lia.
Qed.
Print Assumptions C88_wrong.

(** Two clients.  The first breaks off without close_notify.  The second has just sent a
    request; nothing is wrong with its connection. *)
Definition broken_off : err := Err 20 294.
Definition settle (n : nat) : list (nat * tls_call) :=
  [(n, CallHandshake TlsDone); (n, CallRead false TlsDone w_hello 0); (n, CallRead false (TlsWants true) [] (-1));
   (n, CallWrite false TlsDone 36 36 0); (n, CallRead false (TlsWants true) [] (-1))].
Definition two_clients : list (nat * tls_call) :=
  settle 4 ++ settle 5 ++
  [(4%nat, CallRead false (TlsFails broken_off []) [] (-1));
   (5%nat, CallRead false TlsDone w_get 0); (5%nat, CallRead false (TlsWants true) [] (-1))].
Definition two_clients_run : list iteration :=
  [at_time 0 [arrives 4]; at_time 0 [arrives 5];
   at_time 0 [(4, (1, quiet AcceptAgain (deliver [octets w_hello; block_read; block_read])));
              (5, (1, quiet AcceptAgain (deliver [octets w_hello; block_read; block_read])))];
   at_time 0 [(4, (1, quiet AcceptAgain (deliver [(0, RdErr TransportProtocolError)])));
              (5, (1, quiet AcceptAgain (deliver [octets w_get; (0, RdErr TransportProtocolError)])))]].
Definition hello_trace : trace :=
  let o1 := [0; 0; 18; 4; 0; 0; 0; 0; 0; 0; 3; 0; 0; 0; 100; 0; 4; 0; 0; 255; 255; 0; 5; 0; 0; 64; 0] in
  let o2 := [0; 0; 0; 4; 1; 0; 0; 0; 0] in
  [EvHandshake 0; EvRead 0 w_hello; EvReadError WantReadOrWrite; EvQueue o1; EvQueue o2;
   EvWrite 0 (o1 ++ o2) (o1 ++ o2) (Val 36); EvReadError WantReadOrWrite].
Definition goodbye : event := EvQueue [0; 0; 8; 7; 0; 0; 0; 0; 0; 0; 0; 0; 1; 0; 0; 0; 1].
Definition two_clients_seen : list (nat * event) :=
  map (pair 4%nat) hello_trace ++ map (pair 5%nat) hello_trace ++
  map (pair 4%nat) [EvReadError TransportProtocolError; goodbye] ++
  map (pair 5%nat) [EvRead 0 w_get; EvReadError TransportProtocolError; goodbye].
Lemma two_clients_show : shows (fst (calls two_clients [])) two_clients_seen.
Proof. vm_compute. repeat constructor. Qed.
Theorem C88_own_reason_refuted : forall linux T, exists s h l,
  reached linux 3 unit hi true T k_std tt true enough_resources [] s /\ chronicle unit hi tt s h /\
  Forall (fun x => sane (snd x)) l /\ shows (fst (calls l [])) h /\
  (forall c, In (5%nat, c) l -> deserved c <> Over) /\
  exists h1 h2, h = h1 ++ (5%nat, EvReadError TransportProtocolError) :: h2 /\
  sv_conns unit s = [] /\ forall e, In e (sv_gone unit s) -> received (e_trace e) <> w_hello -> e_socket e = 5%nat /\
    received (e_trace e) = w_hello ++ w_get /\ requests (e_trace e) = [] /\ e_result e = Some DiscardConnection.
Proof.
  intros linux T.
  assert (G : exists s, reached linux 3 unit hi true T k_std tt true enough_resources [] s /\
    sv_conns unit s = [] /\ sv_world unit s = tt /\
    map (fun e => (e_socket e, e_trace e, e_result e)) (sv_gone unit s) =
    [(4%nat, hello_trace ++ [EvReadError TransportProtocolError; goodbye], Some DiscardConnection);
     (5%nat, hello_trace ++ [EvRead 0 w_get; EvReadError TransportProtocolError; goodbye], Some DiscardConnection)]).
  { destruct linux; run two_clients_run. }
  destruct G as (s & Hs & Hc & Hw & Hg). exists s, two_clients_seen, two_clients. split; [exact Hs|].
  assert (Hin : forall e, In e (sv_gone unit s) ->
    (e_socket e, e_trace e, e_result e) = (4%nat, hello_trace ++ [EvReadError TransportProtocolError; goodbye], Some DiscardConnection) \/
    (e_socket e, e_trace e, e_result e) = (5%nat, hello_trace ++ [EvRead 0 w_get; EvReadError TransportProtocolError; goodbye], Some DiscardConnection)).
  { intros e He. apply (in_map (fun e => (e_socket e, e_trace e, e_result e))) in He. rewrite Hg in He. destruct He as [<-|[<-|[]]]; auto. }
  split; [|split; [|split; [exact two_clients_show|split]]].
  - split.
    + intros e [[fd He]|He]; [unfold conn_at in He; now rewrite Hc in He|]. destruct (Hin e He) as [E|E]; injection E as -> -> _; reflexivity.
    + intros n ev Hi. assert (Hn : n = 4%nat \/ n = 5%nat).
      { apply (in_map fst) in Hi. vm_compute in Hi. repeat (destruct Hi as [<-|Hi]; [auto|]). easy. }
      destruct (sv_gone unit s) as [|e1 [|e2 [|]]] eqn:Eg; try discriminate. injection Hg as E1 _ _ E2 _ _.
      destruct Hn as [->| ->]; [exists e1|exists e2]; (split; [right; rewrite Eg; cbn; auto|assumption]).
    + rewrite Hw. constructor.
  - repeat constructor; cbn; easy.
  - intros c Hi. unfold two_clients, settle in Hi. cbn in Hi. repeat (destruct Hi as [E|Hi]; [injection E as ?; try discriminate; subst c; discriminate|]). easy.
  - exists (map (pair 4%nat) hello_trace ++ map (pair 5%nat) hello_trace ++ map (pair 4%nat) [EvReadError TransportProtocolError; goodbye] ++ [(5%nat, EvRead 0 w_get)]),
      [(5%nat, goodbye)]. split; [reflexivity|]. split; [exact Hc|]. intros e He Hr. destruct (Hin e He) as [E|E]; injection E as E1 E2 E3.
    + rewrite E2 in Hr. now elim Hr.
    + rewrite E1, E2, E3. repeat split; reflexivity.
Qed.
Print Assumptions C88_own_reason_refuted.

(** A third connection's handshake in between would have prevented it. *)
Example C88_case : clean (settle 4 ++ settle 5 ++ [(4%nat, CallRead false (TlsFails broken_off []) [] (-1)); (6%nat, CallHandshake (TlsWants true))]) /\
  left_over (settle 4 ++ settle 5 ++ [(4%nat, CallRead false (TlsFails broken_off []) [] (-1)); (5%nat, CallRead false TlsDone w_get 0)]).
Proof.
  split.
  - intros l1 x l2 E Hh. do 5 (destruct l1 as [|? l1]; [injection E as <- _; now cbn in Hh|injection E as _ E]).
    do 5 (destruct l1 as [|? l1]; [injection E as <- _; now cbn in Hh|injection E as _ E]).
    destruct l1 as [|? l1]; [injection E as <- <-|injection E as _ E].
    + eexists. split; [now left|exact I].
    + destruct l1 as [|? l1]; [injection E as <- _; now cbn in Hh|injection E as _ E]. destruct l1; discriminate.
  - exists (settle 4 ++ settle 5), 4%nat, (CallRead false (TlsFails broken_off []) [] (-1)), [(5%nat, CallRead false TlsDone w_get 0)].
    split; [reflexivity|]. split; [now exists broken_off, []|]. intros y [<-|[]] [=].
Qed.

(** ** C89.  Every TLS object is given back to the library once, by the transport it belongs
    to, while its socket is still open.

    [tls_history k0 lucky s]: any sequence of constructions, moves and destructions of
    transports and handles. *)
Theorem C89_freed_once : forall k0 lucky s, in_order k0 -> tls_history k0 lucky s ->
  NoDup (map fst (to_freed s)) /\
  (forall t p, ssl_of t s = Some p -> ~ In p (map fst (to_freed s)) /\ forall t', ssl_of t' s = Some p -> t' = t) /\
  (forall t p, ssl_of t s = Some p -> exists n,
     nth_error (to_made s) p = Some (fd_of t (to_handles s), n) /\ open_under (fd_of t (to_handles s)) (to_handles s) = n) /\
  (forall p n, In (p, n) (to_freed s) -> exists fd, nth_error (to_made s) p = Some (fd, n) /\ (0 <= fd -> n <> None)) /\
  NoDup (k_closed (hd_kernel (to_handles s))) /\ ~ In None (k_closed (hd_kernel (to_handles s))).
Proof.
  intros k0 lucky s Hk H. destruct (good_all k0 Hk lucky s H) as [[G1 G2 G3 G4 G5 G6] _].
  split; [exact G5|]. split; [|split; [|split]].
  - intros t p Ht. split; [apply (G4 t p Ht)|]. intros t' Ht'. exact (G3 t' t p Ht' Ht).
  - intros t p Ht. eexists. split; [apply (G4 t p Ht)|reflexivity].
  - intros p n Hi. destruct (G6 p n Hi) as [fd K]. exists fd. split; [exact K|]. apply (made_open k0 Hk lucky s H). now apply nth_error_In in K.
  - destruct (C54_closed_once k0 _ Hk G1) as (A & B & _). auto.
Qed.
Print Assumptions C89_freed_once.
(** A transport that is moved takes its object and its socket along. *)
Theorem C89_moved : forall k0 lucky s t other, in_order k0 -> tls_history k0 lucky s -> mget other (to_ssl s) <> None ->
  let takes s' := ssl_of t s' = ssl_of other s /\ fd_of t (to_handles s') = fd_of other (to_handles s) /\
    ssl_of other s' = None /\ fd_of other (to_handles s') = -1 /\
    forall x, x <> t -> x <> other -> ssl_of x s' = ssl_of x s /\ fd_of x (to_handles s') = fd_of x (to_handles s) in
  (mget t (hd_fds (to_handles s)) = None -> takes (tls_move t other s)) /\
  (t <> other -> mget t (to_ssl s) <> None -> takes (tls_assign t other s)) /\
  tls_assign t t s = s.
Proof. exact moved. Qed.
Print Assumptions C89_moved.
(** Nothing is lost.  Missing: the case that SSL_set_fd fails. *)
Theorem C89_nothing_lost_partial : forall k0 s, in_order k0 -> tls_history k0 true s ->
  forall p, (p < length (to_made s))%nat -> In p (map fst (to_freed s)) \/ exists t, ssl_of t s = Some p.
Proof. intros k0 s Hk H. exact (proj2 (good_all k0 Hk true s H) eq_refl). Qed.
Print Assumptions C89_nothing_lost_partial.
(** In that case the object is lost: no transport, no handle and no socket is left. *)
Theorem C89_nothing_lost_refuted : exists s, tls_history k_std false s /\ to_ssl s = [] /\ hd_fds (to_handles s) = [] /\
  k_closed (hd_kernel (to_handles s)) = [Some 3%nat] /\ length (to_made s) = 1%nat /\ to_freed s = [].
Proof.
  exists (set_handles (sfd_destroy 10 (to_handles (tls_make SetFdFails 11 10 (set_handles (sfd_obtain 10 4 (Handles [] k_std)) (TlsObjects (Handles [] k_std) [] [] [])))))
           (tls_make SetFdFails 11 10 (set_handles (sfd_obtain 10 4 (Handles [] k_std)) (TlsObjects (Handles [] k_std) [] [] [])))).
  split; [|vm_compute; auto 8].
  apply th_gone; [apply th_make; [apply (th_obtain k_std false (TlsObjects (Handles [] k_std) [] [] [])); [apply th_start|..]|..]|..]; vm_compute; congruence.
Qed.
Print Assumptions C89_nothing_lost_refuted.
(** Two connections; the second transport is assigned to the first, then both are destroyed. *)
Example C89_case : exists s, tls_history k_std true s /\ to_ssl s = [] /\
  to_freed s = [(0%nat, Some 3%nat); (1%nat, Some 4%nat)] /\ k_closed (hd_kernel (to_handles s)) = [Some 3%nat; Some 4%nat].
Proof.
  set (s0 := TlsObjects (Handles [] k_std) [] [] []).
  set (s1 := set_handles (sfd_obtain 10 4 (to_handles s0)) s0).
  set (s2 := set_handles (sfd_obtain 11 5 (to_handles s1)) s1).
  set (s3 := tls_make Made 20 10 s2). set (s4 := tls_make Made 21 11 s3).
  exists (tls_destroy 21 (tls_destroy 20 (tls_assign 20 21 s4))). split; [|vm_compute; auto].
  apply th_destroy; [apply th_destroy; [apply th_assign; [apply th_make; [apply th_make; [apply th_obtain; [apply th_obtain; [apply th_start|..]|..]|..]|..]|..]|]|]; vm_compute; congruence.
Qed.
(** The context: whatever the constructor meets, what was obtained is given back exactly
    once, at the latest by the destructor; there is an object if and only if nothing failed. *)
Theorem C89_context : forall c, let (ok, l) := tls_context c in
  let all := if ok then tls_context_destroy l else l in
  (ok = true <-> cx_cert_exists c && cx_key_exists c && cx_new c && cx_cert_loads c && cx_key_loads c && cx_key_fits c = true) /\
  (all = [CtxNew; CtxFree] \/ all = []) /\
  (all = [] <-> cx_cert_exists c && cx_key_exists c && cx_new c = false).
Proof. intros [[] [] [] [] [] []]; vm_compute; intuition congruence. Qed.
Print Assumptions C89_context.
