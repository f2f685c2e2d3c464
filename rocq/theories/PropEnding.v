(** How connections end (C132). *)
From Verif Require Import Base BaseLemmas Huffman Http Conn SpecConn ConnLemmas ConnBasic ConnTerm ConnSpec ConnWit
  Poller Server SpecServer ServerProofs ServerReach PropServer EndingProofs.

(** ** C132.  A connection that the server ends, while its client has done nothing to end it
    and its transport works, is shut down before its socket is closed ([EvShutdown]: TLS
    close_notify, or shutdown(2) of TCP).

    It is false.  None ever is, of any server, whatever clients, application and system do;
    the code that shuts connections down is never reached. *)
Theorem C132_in_order_refuted : forall linux listener W app cs T k0 w0 ok A pending s e,
  setting listener k0 -> reached linux listener W app cs T k0 w0 ok A pending s ->
  (exists fd, conn_at W s fd e) \/ In e (sv_gone W s) -> ~ In EvShutdown (e_trace e).
Proof.
  intros linux listener W app cs T k0 w0 ok A pending s e Hk H He Hi.
  destruct (C50_own_life _ _ _ _ _ _ _ _ _ _ _ _ _ Hk H He) as [w L]. apply session_open in L as [L _].
  rewrite Forall_forall in L. now apply (L _ Hi).
Qed.
Print Assumptions C132_in_order_refuted.

(** Nor is a connection on its own, however it is driven. *)
Theorem C132_alone : forall W app cs T others t0 w0 A r c tr w,
  session W app cs T others t0 w0 A r c tr w -> ~ In EvShutdown tr.
Proof. intros W app cs T others t0 w0 A r c tr w H Hi. apply session_open in H as [H _]. rewrite Forall_forall in H. now apply (H _ Hi). Qed.
Print Assumptions C132_alone.

(** Of the connections that share the error queue of the TLS library (C88) none adds the
    errors of a shutdown to it. *)
Theorem C132_queue : forall linux listener W app cs T k0 w0 ok A pending s h n,
  setting listener k0 -> reached linux listener W app cs T k0 w0 ok A pending s -> chronicle W app w0 s h -> ~ In (n, EvShutdown) h.
Proof.
  intros linux listener W app cs T k0 w0 ok A pending s h n Hk H Hh Hi.
  destruct (ch_only _ _ _ _ _ Hh _ _ Hi) as (e & He & En).
  apply (C132_in_order_refuted _ _ _ _ _ _ _ _ _ _ _ _ e Hk H He).
  rewrite (ch_own _ _ _ _ _ Hh e He), En. unfold of_socket. apply in_map_iff. exists (n, EvShutdown). split; [reflexivity|].
  apply filter_In. split; [exact Hi|]. cbn. apply Nat.eqb_refl.
Qed.
Print Assumptions C132_queue.

(** Three clients do nothing to end their connections: the first sends a frame that is too
    long, the second has no preface, the third is idle for more than five seconds after its
    request was answered.  All are gone, without a word. *)
Definition three_clients : list iteration :=
  [at_time 0 [arrives 4]; at_time 0 [arrives 5]; at_time 0 [arrives 6];
   at_time 0 [sends 4 (w_hello ++ [0; 64; 1; 0; 0; 0; 0; 0; 1]); sends 5 (repeat 65 24); sends 6 (w_hello ++ w_get)];
   at_time 5000000001 []].
Theorem C132_dropped_refuted : forall linux T, exists s, reached linux 3 unit hi true T k_std tt true enough_resources [] s /\
  sv_conns unit s = [] /\ k_closed (sv_kernel unit s) = [Some 4%nat; Some 5%nat; Some 6%nat] /\
  map (fun e => (e_socket e, received (e_trace e), e_result e)) (sv_gone unit s) =
    [(4%nat, w_hello ++ [0; 64; 1; 0; 0; 0; 0; 0; 1], Some DiscardConnection); (5%nat, repeat 65 24, Some DiscardConnection);
     (6%nat, w_hello ++ w_get, Some WantRead)] /\
  Forall (fun e => fault_free (e_trace e) /\ ~ In EvShutdown (e_trace e)) (sv_gone unit s).
Proof.
  intros linux T.
  assert (G : exists s, reached linux 3 unit hi true T k_std tt true enough_resources [] s /\
    sv_conns unit s = [] /\ k_closed (sv_kernel unit s) = [Some 4%nat; Some 5%nat; Some 6%nat] /\
    map (fun e => (e_socket e, received (e_trace e), e_result e)) (sv_gone unit s) =
      [(4%nat, w_hello ++ [0; 64; 1; 0; 0; 0; 0; 0; 1], Some DiscardConnection); (5%nat, repeat 65 24, Some DiscardConnection);
       (6%nat, w_hello ++ w_get, Some WantRead)] /\
    Forall (fun e => fault_free (e_trace e)) (sv_gone unit s)).
  { destruct linux; (apply (by_reached three_clients); [|apply iterations_ok; vm_compute; reflexivity]).
    all: vm_compute; split; [reflexivity|split; [reflexivity|split; [reflexivity|repeat constructor]]]. }
  destruct G as (s & Hs & H1 & H2 & H3 & H4). exists s. repeat (split; [assumption|]). rewrite Forall_forall in *. intros e He. split; [exact (H4 e He)|].
  eapply C132_in_order_refuted; [|exact Hs|right; exact He]. exact k_std_setting.
Qed.
Print Assumptions C132_dropped_refuted.

(** A connection on its own, from the handshake to its end. *)
Example C132_case : forall T cs, exists c tr w, session unit hi cs T eq 0 tt any (Some DiscardConnection) c tr w /\
  fault_free tr /\ queued tr = o_settings ++ o_ack ++ o_goaway /\ delivered tr = o_settings ++ o_ack /\ ~ In EvShutdown tr.
Proof.
  intros T cs. destruct (goaway_never_sent T cs) as (c & tr & w & H & H1 & _ & H2 & H3). exists c, tr, w. repeat (split; [assumption|]).
  exact (C132_alone _ _ _ _ _ _ _ _ _ _ _ _ H).
Qed.
