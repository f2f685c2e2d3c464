(** What the messages of the server tell. *)
From Verif Require Import Base BaseLemmas Huffman Http Conn SpecConn ConnBasic ConnTerm Poller Server SpecServer ServerProofs ServerReach
  AccessLog SpecApp AppProofs Messages ServerMessages SpecServerMessages.

(** ** Texts *)
Lemma begins_app p x : begins p (p ++ x) = true.
Proof. induction p as [|a p IH]; [reflexivity|]. cbn [begins app]. now rewrite Z.eqb_refl. Qed.
Lemma ends_app p x : ends p (x ++ p) = true.
Proof. unfold ends. rewrite rev_app_distr. apply begins_app. Qed.
Lemma begins_parts p t : begins p t = true -> exists x, t = p ++ x.
Proof.
  revert t. induction p as [|a p IH]; intros t H; [now exists t|]. destruct t as [|b t]; [discriminate|]. cbn [begins] in H.
  apply andb_true_iff in H as [H1 H2]. apply Z.eqb_eq in H1 as ->. destruct (IH t H2) as [x ->]. now exists x.
Qed.

Definition quiet (m : message) : Prop := tells_of_new m = false /\ tells_of_end m = false /\ tells_of_client m = false.
Lemma quiet_listening x : quiet (info (str "listening on port " ++ x)).
Proof. repeat split. Qed.
Lemma quiet_bye x : quiet (info (str "server shutting down (reason: " ++ x)).
Proof. repeat split. Qed.
Lemma quiet_set x : quiet (warn (str "epoll_ctl: failed (fd: " ++ x)).
Proof. repeat split. Qed.
Lemma quiet_nodelay x : quiet (warn (str "failed to set TCP_NODELAY on client fd: " ++ x)).
Proof. repeat split. Qed.
Lemma quiet_peer x : quiet (err (str "getpeername failed: " ++ x)).
Proof. repeat split. Qed.
Lemma quiet_family x : quiet (err (str "unknown ss_family: " ++ x)).
Proof. repeat split. Qed.
Lemma quiet_interrupted : quiet (warn (str "poll interrupted by signal")).
Proof. repeat split. Qed.
Lemma quiet_poll x : quiet (err (str "poll failed: " ++ x)).
Proof. repeat split. Qed.
Lemma quiet_del x : quiet (warn (str "epoll_ctl: DEL failed (fd: " ++ x ++ str "): " ++ str "No such file or directory")).
Proof.
  repeat split. unfold tells_of_end.
  assert (E : ends (str "): Bad file descriptor") (m_text (warn (str "epoll_ctl: DEL failed (fd: " ++ x ++ str "): " ++ str "No such file or directory"))) = false).
  { unfold ends, warn. cbn [m_text]. rewrite !app_assoc, !rev_app_distr. reflexivity. }
  rewrite E, andb_false_r. reflexivity.
Qed.

Definition tells (new last client : bool) (m : message) : Prop :=
  tells_of_new m = new /\ tells_of_end m = last /\ tells_of_client m = client.
Lemma tells_hangup x : tells false true false (warn (str "epoll_ctl: DEL failed (fd: " ++ x ++ str "): " ++ str "Bad file descriptor")).
Proof.
  repeat split. unfold tells_of_end.
  assert (E : ends (str "): Bad file descriptor") (m_text (warn (str "epoll_ctl: DEL failed (fd: " ++ x ++ str "): " ++ str "Bad file descriptor"))) = true).
  { unfold warn. cbn [m_text]. rewrite app_assoc. apply ends_app. }
  rewrite E, andb_true_r, !orb_true_iff. right. reflexivity.
Qed.
Lemma tells_new x : tells true false false (info (str "HTTP connection established. total = " ++ x)).
Proof. repeat split. Qed.
Lemma tells_connected x : tells false false true (info (str "client connected (ip: " ++ x)).
Proof. repeat split. Qed.
Lemma tells_rejected x : tells false false true (warn (str "server at capacity. rejecting new connection from " ++ x)).
Proof. repeat split. Qed.
Lemma tells_closing : tells false true false (info (str "closing connection")).
Proof. repeat split. Qed.
Lemma tells_idle x : tells false true false (warn (str "closing connection due to inactivity (fd: " ++ x)).
Proof. repeat split. Qed.

(** ** Counting *)
Lemma counted_shift ms : forall n, counted n ms = n + counted 0 ms.
Proof.
  induction ms as [|m ms IH]; intros n; unfold counted in *; cbn [fold_left]; [lia|]. rewrite IH, (IH (0 + change m)). lia.
Qed.
Lemma counted_app n a b : counted n (a ++ b) = counted (counted n a) b.
Proof. apply fold_left_app. Qed.
Lemma totals_app a : forall n b, totals n a -> totals (counted n a) b -> totals n (a ++ b).
Proof.
  induction a as [|m a IH]; intros n b Ha Hb; [exact Hb|]. cbn [app totals] in *. destruct Ha as [H1 H2]. split; [exact H1|]. now apply IH.
Qed.
Lemma clients_app a b : clients (a ++ b) = clients a + clients b.
Proof. unfold clients. rewrite filter_app. apply lenZ_app. Qed.
Lemma quiet_all ms : Forall quiet ms -> counted 0 ms = 0 /\ clients ms = 0 /\ forall n, totals n ms.
Proof.
  induction 1 as [|m ms (H1 & H2 & H3) _ (I1 & I2 & I3)]; [easy|]. unfold counted, clients. cbn [fold_left filter]. rewrite H3.
  unfold change. rewrite H1, H2. split; [exact I1|]. split; [exact I2|]. intros n. cbn [totals]. split; [congruence|apply I3].
Qed.

Lemma named_app who o a b : named who o a -> named who (o + length (filter tells_of_client a)) b -> named who o (a ++ b).
Proof.
  intros Ha Hb i m. rewrite filter_app. intros E. destruct (Nat.lt_ge_cases i (length (filter tells_of_client a))) as [L|L].
  - rewrite nth_error_app1 in E by exact L. exact (Ha _ _ E).
  - rewrite nth_error_app2 in E by exact L. apply Hb in E. rewrite <- Nat.add_assoc, Nat.add_comm with (n := length _), Nat.sub_add in E by exact L. exact E.
Qed.
(** The messages [ms] are right about going from [n] connections and [o] sockets to [n'] and [o']. *)
Record right (who : nat -> peer) (linux : bool) (n : Z) (o : nat) (n' : Z) (o' : nat) (ms : list message) : Prop := {
  r_least : n' - n <= counted 0 ms;
  r_count : linux = true -> counted n ms = n';
  r_totals : linux = true -> totals n ms;
  r_clients : clients ms = Z.of_nat o' - Z.of_nat o;
  r_named : (forall n, peer_ok (who n)) -> named who o ms }.
Lemma right_app who linux n o n1 o1 n2 o2 a b : right who linux n o n1 o1 a -> right who linux n1 o1 n2 o2 b -> right who linux n o n2 o2 (a ++ b).
Proof.
  intros [A1 A2 A3 A4 A5] [B1 B2 B3 B4 B5]. split.
  - rewrite counted_app, counted_shift. lia.
  - intros L. rewrite counted_app, A2 by exact L. auto.
  - intros L. apply totals_app; [auto|]. rewrite A2 by exact L. auto.
  - rewrite clients_app. lia.
  - intros P. apply named_app; [auto|]. replace (o + length (filter tells_of_client a))%nat with o1; [auto|]. unfold clients, lenZ in A4. lia.
Qed.
Lemma right_quiet who linux n o ms : Forall quiet ms -> right who linux n o n o ms.
Proof.
  intros H. destruct (quiet_all ms H) as (H1 & H2 & H3). split; [lia| |auto|lia|]; [intros _; rewrite counted_shift; lia|].
  intros _ i m E. exfalso. apply nth_error_In in E. apply filter_In in E as [E1 E2]. rewrite Forall_forall in H. destruct (H m E1) as (_ & _ & H'). congruence.
Qed.
Lemma right_end who linux n o m : tells false true false m -> right who linux n o (n - 1) o [m].
Proof.
  intros (H1 & H2 & H3). split; unfold counted, clients, named; cbn [fold_left filter totals]; unfold change; rewrite ?H1, ?H2, ?H3; [lia|lia| |unfold lenZ; cbn; lia|intros _ [] m'; discriminate].
  split; [discriminate|exact I].
Qed.
Lemma right_client who linux n o m : tells false false true m -> (peer_ok (who o) -> about (who o) m) -> right who linux n o n (S o) [m].
Proof.
  intros (H1 & H2 & H3) A. split; unfold counted, clients, named; cbn [fold_left filter totals]; unfold change; rewrite ?H1, ?H2, ?H3; [lia|lia| |unfold lenZ; cbn [length]; lia|].
  - split; [discriminate|exact I].
  - intros P [|[]] m'; cbn [nth_error]; [|discriminate|discriminate]. intros [= <-]. rewrite Nat.add_0_r. auto.
Qed.
Lemma right_new who linux n o : 0 <= n -> right who linux n o (n + 1) o [info (str "HTTP connection established. total = " ++ to_string (n + 1))].
Proof.
  intros Hn. destruct (tells_new (to_string (n + 1))) as (H1 & H2 & H3).
  split; unfold counted, clients, named; cbn [fold_left filter totals]; unfold change; rewrite ?H1, ?H2, ?H3; [lia|lia| |unfold lenZ; cbn [length]; lia|intros _ [] m'; discriminate].
  split; [|exact I]. intros _. exists (to_string (n + 1)). split; [reflexivity|]. apply to_string_spec. lia.
Qed.

Section Proofs.
  Variable v : voice.
  Variable linux : bool.
  Variable listener : Z.
  Variable W : Type.
  Variable app : request -> W -> W * app_answer.
  Variable cs : bool.
  Variable T : tree.
  Variable k0 : kernel.
  Variable w0 : W.
  Hypothesis Hk0 : in_order k0.
  Hypothesis Hl0 : 0 <= listener /\ mget listener (k_open k0) = None.

  Notation server := (server W).
  Notation conns s := (sv_conns W s).
  Notation pfds s := (p_fds (sv_poller W s)).
  Notation ker s := (sv_kernel W s).
  Notation good := (good linux listener W app cs T k0 w0).
  Notation num s := (lenZ (conns s)).
  Notation obj s := (k_objects (ker s)).
  Notation right s s' := (right (v_peer v) linux (num s) (obj s) (num s') (obj s')).

  Lemma set_quiet ok fd ev s : Forall quiet (set_messages v linux W ok fd ev s).
  Proof.
    unfold set_messages. destruct linux; [|constructor]. destruct (fst _); [constructor|]. constructor; [apply quiet_set|constructor].
  Qed.
  Lemma accept_quiet n : Forall quiet (accept_messages v n).
  Proof. unfold accept_messages. destruct (v_nodelay v n); constructor; [apply quiet_nodelay|constructor]. Qed.
  Lemma ip_quiet n : Forall quiet (ip_messages v n).
  Proof. unfold ip_messages. destruct (v_peer v n); constructor; first [apply quiet_peer|apply quiet_family|constructor]. Qed.
  Lemma poll_quiet e : Forall quiet (poll_messages v linux e).
  Proof.
    unfold poll_messages. destruct linux; [constructor|]. destruct e as [|[]]; constructor; first [apply quiet_interrupted|apply quiet_poll|constructor].
  Qed.
  Lemma remove_quiet fd s : mget fd (k_open (ker s)) <> None -> Forall quiet (remove_messages v linux W fd s).
  Proof.
    intros H. unfold remove_messages. destruct linux; [|constructor]. unfold epoll_ctl, ctl_error. apply mhas_true in H. rewrite H. cbn [negb].
    destruct (mhas fd (k_watch (ker s))); cbn [fst]; [constructor|]. constructor; [apply quiet_del|constructor].
  Qed.

  Lemma ip_shown default n : peer_ok (v_peer v n) -> shown default (v_peer v n) (ip_or v (str default) n).
  Proof.
    intros H. unfold shown, ip_or. pose proof (client_address _ H) as A. destruct (v_peer v n) as [|a b c d|t|]; try reflexivity; cbn [client_ip] in *.
    - destruct (to_string a ++ _) eqn:E in A |- *; [|exact A]. apply app_eq_nil in E as [_ E]. discriminate.
    - constructor.
  Qed.
  Lemma connected_about n : peer_ok (v_peer v n) -> about (v_peer v n) (info (str "client connected (ip: " ++ ip_or v (str "unknown") n ++ str ")")).
  Proof. intros H. left. exists (ip_or v (str "unknown") n). split; [reflexivity|now apply ip_shown]. Qed.
  Lemma rejected_about n : peer_ok (v_peer v n) -> about (v_peer v n) (warn (str "server at capacity. rejecting new connection from " ++ ip_or v (str "unknown IP") n)).
  Proof. intros H. right. exists (ip_or v (str "unknown IP") n). split; [reflexivity|now apply ip_shown]. Qed.

  Lemma dropped_num fd e s s' : good s -> conn_at W s fd e -> dropped W fd e s s' -> num s' = num s - 1 /\ obj s' = obj s.
  Proof.
    intros G C D. split; [|exact (dr_objects _ _ _ _ _ D)]. rewrite (dr_conns _ _ _ _ _ D).
    destruct (g_limit _ _ _ _ _ _ _ _ s G) as (_ & M & _). unfold conn_at in C.
    assert (E : S (length (mdel fd (conns s))) = length (conns s)) by (apply mdel_length_in; [exact M|congruence]). unfold lenZ. lia.
  Qed.
  Lemma put_num fd e s : NoDup (map fst (conns s)) -> mget fd (conns s) <> None -> lenZ (mput fd e (conns s)) = num s.
  Proof. intros M C. unfold mput. rewrite lenZ_cons. unfold lenZ. pose proof (mdel_length_in fd (conns s) M C). lia. Qed.
  Lemma set_num ok fd ev s : num (set linux W ok fd ev s) = num s /\ obj (set linux W ok fd ev s) = obj s.
  Proof.
    split; [reflexivity|]. unfold set, poller_set, set_poller, epoll_ctl. destruct linux; [|reflexivity].
    destruct (negb (mhas fd (k_open (ker s)))); [reflexivity|]. destruct (mhas fd (pfds s)), (mhas fd (k_watch (ker s))), ok; reflexivity.
  Qed.
  (** After the descriptor is closed, it cannot be removed. *)
  Lemma hangup_messages fd e s : good s -> conn_at W s fd e ->
    remove_messages v linux W fd (erase W fd s) =
      if linux then [warn (str "epoll_ctl: DEL failed (fd: " ++ to_string fd ++ str "): " ++ str "Bad file descriptor")] else [].
  Proof.
    intros G C. pose proof (good_open _ _ _ _ _ _ _ _ Hl0 _ _ _ G C) as O. unfold remove_messages. destruct linux; [|reflexivity].
    assert (E : mhas fd (k_open (ker (erase W fd s))) = false).
    { unfold erase. unfold conn_at in C. rewrite C. cbn [sv_kernel]. unfold k_close. rewrite O. cbn [k_open]. apply mhas_false.
      now rewrite mget_mdel, Z.eqb_refl. }
    unfold epoll_ctl, ctl_error. rewrite E. reflexivity.
  Qed.

  Lemma incoming_right a s s' : good s -> handle_incoming_connection linux W a s = Ret s' -> right s s' (incoming_messages v linux W a s).
  Proof.
    intros G E. unfold handle_incoming_connection, incoming_messages, establish_conn, establish_messages in *.
    destruct (negb (num s >=? MAX_CONNECTIONS)) eqn:Ec.
    - destruct (try_accept a (ker s)) as [[fd k]| | |] eqn:Ea; try discriminate E. cbn [obind] in E.
      apply try_accept_cases in Ea as [(-> & ->)|(x & -> & H1 & H2 & ->)].
      + injection E as <-. rewrite set_kernel_same. apply right_quiet. constructor.
      + destruct (ar_transport a); [|discriminate E]. cbn [negb] in E. injection E as <-.
        assert (Hx : mget x (conns s) = None).
        { destruct (mget x (conns s)) as [e|] eqn:Ex; [|reflexivity]. rewrite (good_open _ _ _ _ _ _ _ _ Hl0 _ _ _ G Ex) in H2. discriminate. }
        match goal with |- context [num (set linux W ?o ?f ?e ?y)] => destruct (set_num o f e y) as [N O] end.
        rewrite N, O. cbn [set_conns set_kernel sv_conns sv_kernel k_new k_objects]. unfold mput. rewrite !lenZ_cons, (mdel_absent _ _ Hx).
        replace (1 + num s) with (num s + 1) by lia.
        eapply right_app; [apply right_quiet, accept_quiet|]. eapply right_app; [apply right_quiet, ip_quiet|].
        eapply right_app; [apply right_client; [apply tells_connected|apply connected_about]|]. eapply right_app; [apply right_new; apply lenZ_nonneg|].
        apply right_quiet, set_quiet.
    - destruct (try_accept a (ker s)) as [[fd k]| | |] eqn:Ea; try discriminate E. cbn [obind] in E.
      apply try_accept_cases in Ea as [(-> & ->)|(x & -> & H1 & H2 & ->)]; injection E as <-.
      + rewrite set_kernel_same. apply right_quiet. constructor.
      + cbn [set_kernel sv_conns sv_kernel].
        assert (O : k_objects (k_close x (k_new x (ker s))) = S (obj s)).
        { unfold k_close. now destruct (mget x (k_open (k_new x (ker s)))). }
        rewrite O. eapply right_app; [apply right_quiet, accept_quiet|]. eapply right_app; [apply right_quiet, ip_quiet|].
        apply right_client; [apply tells_rejected|apply rejected_about].
  Qed.
  Lemma event_right fd ev a s s' : good s -> none_discarded W s -> scripts_ok (ar_scripts a) ->
    handle_connection_events linux W app cs T fd ev a s = Ret s' -> right s s' (event_messages v linux W app cs T fd ev a s).
  Proof.
    intros G N Hs E. unfold handle_connection_events, event_messages in *.
    destruct (mget fd (conns s)) as [e|] eqn:Ec; [|injection E as <-; apply right_quiet; constructor].
    pose proof (good_open _ _ _ _ _ _ _ _ Hl0 _ _ _ G Ec) as O.
    destruct (has_event ev PError || has_event ev PHangup).
    { injection E as <-. destruct (dropped_num _ _ _ _ G Ec (drop_erase_remove linux W fd e s Ec O)) as [-> ->].
      rewrite (hangup_messages _ _ _ G Ec). destruct linux; [apply right_end, tells_hangup|]. split; try discriminate; [unfold counted, clients; cbn; lia|unfold counted, clients; cbn; lia|intros _ [] m; discriminate]. }
    destruct (negb (has_event ev PRead) && negb (has_event ev PWrite)); [injection E as <-; apply right_quiet; constructor|].
    set (s1 := if has_event ev PWrite then _ else _) in *.
    assert (H1 : num s1 = num s /\ obj s1 = obj s /\ conns s1 = conns s /\ good s1).
    { unfold s1. destruct (has_event ev PWrite); [|auto]. destruct (set_num (ctl_ok 0 a) fd PRead s) as [A B]. split; [exact A|]. split; [exact B|]. split; [reflexivity|].
      apply set_good; [exact Hl0|exact G|right; now exists e]. }
    destruct H1 as (Hn1 & Ho1 & Hc1 & G1). rewrite <- Hn1, <- Ho1.
    assert (N1 : none_discarded W s1) by (intros x b; unfold conn_at; rewrite Hc1; apply N).
    assert (Hs1 : conn_at W s1 fd e) by (unfold conn_at; now rewrite Hc1).
    eapply right_app; [apply right_quiet; destruct (has_event ev PWrite); [apply set_quiet|constructor]|].
    clearbody s1. destruct (process W app cs T (ar_scripts a) (e_conn e) (sv_world W s1)) as [[[[r c] tr] w]| | |] eqn:Ep; cbn [obind] in E; try discriminate E.
    set (e' := Entry (e_socket e) (e_born e) c (Some r) (e_trace e ++ tr)) in *. set (s2 := set_world W w _) in *.
    assert (G2 : good s2).
    { eapply updated_good; [exact Hl0|exact G1|exact Hs1|reflexivity|]. unfold own_life, e'. cbn [e_born e_result e_conn e_trace].
      eapply session_process; [exact (proj1 (g_lives _ _ _ _ _ _ _ _ _ G1) fd e Hs1)|exact (N1 fd e Hs1)|exact Hs|exact I|exact Ep]. }
    assert (Hn2 : num s2 = num s1 /\ obj s2 = obj s1).
    { split; [|reflexivity]. unfold s2. cbn [set_world set_conns sv_conns]. apply put_num; [apply (g_limit _ _ _ _ _ _ _ _ _ G1)|]. unfold conn_at in Hs1. congruence. }
    destruct Hn2 as [Hn2 Ho2]. rewrite <- Hn2, <- Ho2.
    assert (C2 : conn_at W s2 fd e') by (unfold conn_at, s2; cbn [set_world set_conns sv_conns]; now rewrite mget_mput, Z.eqb_refl).
    clearbody s2 e'. destruct r; injection E as <-.
    - apply right_quiet. constructor.
    - match goal with |- context [num (set linux W ?o ?f ?e s2)] => destruct (set_num o f e s2) as [-> ->] end. apply right_quiet, set_quiet.
    - pose proof (good_open _ _ _ _ _ _ _ _ Hl0 _ _ _ G2 C2) as O2.
      destruct (dropped_num _ _ _ _ G2 C2 (drop_remove_erase linux W fd e' s2 C2 O2)) as [-> ->].
      eapply right_app; [apply right_end, tells_closing|]. apply right_quiet, remove_quiet. congruence.
  Qed.
  Lemma events_right evs : forall s s', good s -> none_discarded W s -> Forall around_ok evs ->
    handle_events linux listener W app cs T evs s = Ret s' -> right s s' (events_messages v linux listener W app cs T evs s).
  Proof.
    induction evs as [|[fd [ev a]] evs IH]; intros s s' G N Ha E; [injection E as <-; apply right_quiet; constructor|]. cbn [handle_events events_messages] in *.
    apply Forall_cons_iff in Ha as [Ha Ha']. destruct (fd =? listener).
    - destruct (handle_incoming_connection linux W a s) as [s1| | |] eqn:E1; try discriminate E. cbn [obind] in E.
      eapply right_app; [exact (incoming_right _ _ _ G E1)|]. apply IH; [exact (incoming_good _ _ _ _ _ _ _ _ Hl0 _ _ _ G E1)|exact (incoming_none _ _ app w0 _ _ _ N E1)|exact Ha'|exact E].
    - destruct (handle_connection_events linux W app cs T fd ev a s) as [s1| | |] eqn:E1; try discriminate E. cbn [obind] in E.
      eapply right_app; [exact (event_right _ _ _ _ _ G N Ha E1)|].
      destruct (events_good _ _ _ _ _ _ _ _ Hl0 _ _ _ _ _ G N Ha E1) as [G1 N1]. now apply IH.
  Qed.
  Lemma reap_right clock l : forall s, good s -> NoDup (map fst l) -> (forall fd e, In (fd, e) l -> conn_at W s fd e) ->
    right s (reap linux W clock l s) (reap_messages v linux W clock l s).
  Proof.
    induction l as [|[fd e] l IH]; intros s G Hd Hl; [apply right_quiet; constructor|]. cbn [reap reap_messages]. cbn [map fst] in Hd.
    inversion Hd as [|x y Hd1 Hd2]; subst x y. assert (C : conn_at W s fd e) by (apply Hl; now left).
    destruct (has_timed_out (clock fd) (e_conn e)); [|apply IH; [exact G|exact Hd2|intros x b K; apply Hl; now right]].
    pose proof (good_open _ _ _ _ _ _ _ _ Hl0 _ _ _ G C) as O. pose proof (drop_remove_erase linux W fd e s C O) as D.
    destruct (dropped_num _ _ _ _ G C D) as [Dn Do].
    eapply right_app; [apply right_end, tells_idle|]. eapply right_app; [apply right_quiet, remove_quiet; congruence|].
    rewrite <- Dn, <- Do. apply IH; [exact (dropped_good _ _ _ _ _ _ _ _ Hl0 _ _ _ _ G C D)|exact Hd2|].
    intros x b K. unfold conn_at. rewrite (dr_conns _ _ _ _ _ D), mget_mdel. destruct (Z.eqb_spec x fd) as [->|_]; [|apply Hl; now right].
    exfalso. apply Hd1. apply in_map_iff. exists (fd, b). auto.
  Qed.
  Lemma stops_num l : forall s, num (fold_left (fun s r => stop W r s) l s) = num s /\ obj (fold_left (fun s r => stop W r s) l s) = obj s.
  Proof. induction l as [|r l IH]; intros s; [auto|]. cbn [fold_left]. exact (IH (stop W r s)). Qed.
  Lemma iterate_right it s s' : good s -> none_discarded W s -> iteration_ok it ->
    iterate linux listener W app cs T it s = Ret s' -> right s s' (iterate_messages v linux listener W app cs T it s).
  Proof.
    intros G N Hok E. destruct (g_limit _ _ _ _ _ _ _ _ s G) as (_ & M & _).
    pose proof (batch_spec linux listener W app cs T k0 w0 Hl0 it s G N) as (B1 & B2 & _ & _ & B5). specialize (B5 Hok). unfold batch in B1, B2, B5.
    unfold iterate, iterate_messages in *.
    eapply right_app; [apply reap_right; [exact G|exact M|intros fd e K; exact (proj2 (mget_entry (conns s) M fd e) K)]|].
    fold (reap_idle_connections linux W (it_clock it) s) in *. set (s1 := reap_idle_connections linux W (it_clock it) s) in *.
    destruct (poller_poll linux (it_wait it) (sv_poller W s1) (ker s1)) as [events p]. cbn [fst snd] in *.
    eapply right_app; [apply right_quiet, poll_quiet|].
    destruct events as [evs|x]; cbn [obind] in E.
    - destruct (handle_events linux listener W app cs T evs _) as [s2| | |] eqn:E2; try discriminate E. cbn [obind] in E. injection E as <-.
      destruct (stops_num (it_stops it) s2) as [-> ->]. exact (events_right _ _ _ B1 B2 B5 E2).
    - injection E as <-. destruct (stops_num (it_stops it) (set_poller W (p, ker s1) s1)) as [-> ->]. apply right_quiet. constructor.
  Qed.
  Lemma loop_right its : forall s b s', good s -> none_discarded W s -> Forall iteration_ok its ->
    loop linux listener W app cs T its s = Ret (b, s') -> right s s' (loop_messages v linux listener W app cs T its s).
  Proof.
    induction its as [|it its IH]; intros s b s' G N Hok E; cbn [loop loop_messages] in *.
    - destruct (sv_stop W s); injection E as _ <-; apply right_quiet; [constructor; [apply quiet_bye|]|]; constructor.
    - destruct (sv_stop W s); [injection E as _ <-; apply right_quiet; constructor; [apply quiet_bye|constructor]|].
      apply Forall_cons_iff in Hok as [Hok Hok'].
      destruct (iterate linux listener W app cs T it s) as [s1| | |] eqn:E1; try discriminate E. cbn [obind] in E.
      destruct (iterate_good _ _ _ _ _ _ _ _ Hl0 _ _ _ G N Hok E1) as [G1 N1].
      eapply right_app; [exact (iterate_right _ _ _ G N Hok E1)|]. exact (IH _ _ _ G1 N1 Hok' E).
  Qed.
  Lemma start_right port made ok stopped its b s : Forall iteration_ok its ->
    start linux listener W app cs T made ok stopped k0 w0 its = Ret (b, s) ->
    ServerMessagesProofs.right (v_peer v) linux 0 (S (k_objects k0)) (num s) (obj s) (start_messages v linux listener W app cs T port made ok stopped k0 w0 its).
  Proof.
    unfold start, start_messages. destruct made; [|discriminate]. cbn [negb]. intros Hok E.
    eapply right_app; [apply right_quiet; constructor; [apply quiet_listening|constructor]|].
    eapply right_app; [apply right_quiet, set_quiet|].
    destruct (first_good linux listener W app cs T k0 w0 Hk0 Hl0 ok stopped) as [G N]. pose proof (loop_right its _ _ _ G N Hok E) as R.
    destruct (set_num ok listener PRead (Server W [] stopped new_poller (k_new listener k0) w0 [])) as [A B]. unfold first_state in R. rewrite A, B in R. exact R.
  Qed.

  (** ** The first and the last line *)
  Lemma loop_last its : forall s s', loop linux listener W app cs T its s = Ret (true, s') ->
    exists before r, sv_stop W s' = Some r /\ loop_messages v linux listener W app cs T its s =
      before ++ [info (str "server shutting down (reason: " ++ reason_text r ++ str ")")].
  Proof using Type.
    clear Hk0 Hl0.
    induction its as [|it its IH]; intros s s' E; cbn [loop loop_messages] in *.
    - destruct (sv_stop W s) as [r|] eqn:Er; [|discriminate E]. injection E as <-. exists [], r. split; [exact Er|reflexivity].
    - destruct (sv_stop W s) as [r|] eqn:Er; [injection E as <-; exists [], r; auto|].
      destruct (iterate linux listener W app cs T it s) as [s1| | |]; try discriminate E. cbn [obind] in E.
      destruct (IH _ _ E) as (before & r & H1 & ->). exists (iterate_messages v linux listener W app cs T it s ++ before), r. split; [exact H1|]. rewrite app_assoc. reflexivity.
  Qed.

  (** ** With enough resources *)
  Notation only := complains_of_hangups_only.
  Lemma only_nil : only [].
  Proof. easy. Qed.
  Lemma only_app a b : only a -> only b -> only (a ++ b).
  Proof. intros Ha Hb m H. apply in_app_iff in H as [H|H]; auto. Qed.
  Lemma only_one m : begins (str "epoll_ctl") (m_text m) = false -> only [m].
  Proof. intros H m' [<-|[]] H'. congruence. Qed.
  Lemma only_end m : tells_of_end m = true -> only [m].
  Proof. intros H m' [<-|[]] _. exact H. Qed.
  Lemma only_accept n : only (accept_messages v n).
  Proof. unfold accept_messages. destruct (v_nodelay v n); [now apply only_one|apply only_nil]. Qed.
  Lemma only_ip n : only (ip_messages v n).
  Proof. unfold ip_messages. destruct (v_peer v n); first [now apply only_one|apply only_nil]. Qed.
  Lemma only_poll e : only (poll_messages v linux e).
  Proof. unfold poll_messages. destruct linux; [apply only_nil|]. destruct e as [|[]]; first [now apply only_one|apply only_nil]. Qed.
  Lemma set_fine fd ev s : good s -> (fd = listener \/ exists e, conn_at W s fd e) -> set_messages v linux W true fd ev s = [].
  Proof.
    intros H Hf. assert (Ho : mget fd (k_open (ker s)) <> None).
    { destruct Hf as [->|[e Hf]]; [|apply (good_open _ _ _ _ _ _ _ _ Hl0) with (1 := H) in Hf; congruence].
      assert (mget listener (k_open (ker s)) = Some (k_objects k0)) by (apply (g_desc _ _ _ _ _ _ _ _ s H); auto). congruence. }
    unfold set_messages. destruct linux eqn:El; [|reflexivity]. destruct (g_stale _ _ _ _ _ _ _ _ s H) as [_ P]. specialize (P eq_refl fd).
    unfold epoll_ctl. apply mhas_true in Ho. rewrite Ho. cbn [negb].
    assert (E : mhas fd (k_watch (ker s)) = mhas fd (pfds s)) by (unfold mhas; rewrite P; now destruct (mget fd (pfds s))).
    rewrite E. destruct (mhas fd (pfds s)); reflexivity.
  Qed.
  Lemma remove_fine fd e s : good s -> conn_at W s fd e -> mget fd (pfds s) <> None -> remove_messages v linux W fd s = [].
  Proof.
    intros H C Hw. pose proof (good_open _ _ _ _ _ _ _ _ Hl0 _ _ _ H C) as O. unfold remove_messages. destruct linux eqn:El; [|reflexivity].
    destruct (g_stale _ _ _ _ _ _ _ _ s H) as [_ P]. specialize (P eq_refl fd). unfold epoll_ctl.
    assert (E : mhas fd (k_open (ker s)) = true) by (apply mhas_true; congruence). rewrite E. cbn [negb].
    assert (E' : mhas fd (k_watch (ker s)) = true). { apply mhas_true. rewrite P. now destruct (mget fd (pfds s)). } rewrite E'. reflexivity.
  Qed.
  Lemma incoming_only a s : good s -> plenty a -> only (incoming_messages v linux W a s).
  Proof.
    intros G Ha. unfold incoming_messages, establish_messages, MAX_CONNECTIONS. rewrite Z.geb_leb. destruct (Z.leb_spec 128 (num s)) as [Hl|Hl]; cbn [negb].
    - destruct (try_accept a (ker s)) as [[[fd|] k]| | |] eqn:Ea; try apply only_nil. apply only_app; [apply only_accept|]. apply only_app; [apply only_ip|]. now apply only_one.
    - destruct (try_accept a (ker s)) as [[[fd|] k]| | |] eqn:Ea; try apply only_nil. apply only_app; [apply only_accept|]. apply only_app; [apply only_ip|].
      apply only_app; [now apply only_one|]. destruct (ar_transport a); [|apply only_nil]. apply only_app; [now apply only_one|].
      apply try_accept_cases in Ea as [(K & _)|(x & K & H1 & H2 & ->)]; [discriminate|]. injection K as <-.
      rewrite (ctl_plenty 0 a Ha), set_fine; [apply only_nil| |].
      + exact (added_good _ _ _ _ _ _ _ _ Hl0 fd (ar_now a) s G H1 H2 Hl).
      + right. eexists. unfold conn_at. cbn [set_conns sv_conns]. now rewrite mget_mput, Z.eqb_refl.
  Qed.
  Lemma event_only fd ev a s : good s -> none_discarded W s -> scripts_ok (ar_scripts a) -> all_watched listener W s -> plenty a ->
    only (event_messages v linux W app cs T fd ev a s).
  Proof.
    intros G N Hs HW Ha. unfold event_messages. destruct (mget fd (conns s)) as [e|] eqn:Ec; [|apply only_nil].
    destruct (has_event ev PError || has_event ev PHangup).
    { rewrite (hangup_messages _ _ _ G Ec). destruct linux; [|apply only_nil]. apply only_end. apply tells_hangup. }
    destruct (negb (has_event ev PRead) && negb (has_event ev PWrite)); [apply only_nil|].
    apply only_app; [destruct (has_event ev PWrite); [|apply only_nil]; rewrite (ctl_plenty 0 a Ha), set_fine; [apply only_nil|exact G|right; now exists e]|].
    set (s1 := if has_event ev PWrite then _ else _) in *.
    assert (H1 : conns s1 = conns s /\ good s1 /\ mget fd (pfds s1) <> None).
    { unfold s1. destruct (has_event ev PWrite).
      - split; [reflexivity|]. split; [apply set_good; [exact Hl0|exact G|right; now exists e]|]. rewrite (ctl_plenty 0 a Ha).
        pose proof (set_watched _ _ _ _ _ _ _ _ Hl0 fd PRead s G (or_intror (ex_intro _ _ Ec))) as D. rewrite (to_fds _ _ _ _ _ _ D), mget_mput, Z.eqb_refl. discriminate.
      - split; [reflexivity|]. split; [exact G|]. destruct (proj2 HW fd e Ec) as (x & X & _). congruence. }
    destruct H1 as (Hc1 & G1 & P1). clearbody s1.
    assert (N1 : none_discarded W s1) by (intros x b; unfold conn_at; rewrite Hc1; apply N).
    assert (Hs1 : conn_at W s1 fd e) by (unfold conn_at; now rewrite Hc1).
    destruct (process W app cs T (ar_scripts a) (e_conn e) (sv_world W s1)) as [[[[r c] tr] w]| | |] eqn:Ep; try apply only_nil.
    set (e' := Entry (e_socket e) (e_born e) c (Some r) (e_trace e ++ tr)) in *. set (s2 := set_world W w _) in *.
    assert (G2 : good s2).
    { eapply updated_good; [exact Hl0|exact G1|exact Hs1|reflexivity|]. unfold own_life, e'. cbn [e_born e_result e_conn e_trace].
      eapply session_process; [exact (proj1 (g_lives _ _ _ _ _ _ _ _ _ G1) fd e Hs1)|exact (N1 fd e Hs1)|exact Hs|exact I|exact Ep]. }
    assert (C2 : conn_at W s2 fd e') by (unfold conn_at, s2; cbn [set_world set_conns sv_conns]; now rewrite mget_mput, Z.eqb_refl).
    destruct r; [apply only_nil| |].
    - rewrite (ctl_plenty 1 a Ha), set_fine; [apply only_nil|exact G2|right; now exists e'].
    - apply only_app; [now apply only_one|]. rewrite (remove_fine fd e' s2 G2 C2 P1). apply only_nil.
  Qed.
  Lemma events_only evs : forall s, good s -> none_discarded W s -> Forall around_ok evs -> all_watched listener W s ->
    Forall (fun x => plenty (snd (snd x))) evs -> only (events_messages v linux listener W app cs T evs s).
  Proof.
    induction evs as [|[fd [ev a]] evs IH]; intros s G N Ha HW Hp; [apply only_nil|]. cbn [events_messages].
    apply Forall_cons_iff in Ha as [Ha Ha']. apply Forall_cons_iff in Hp as [Hp Hp']. destruct (Z.eqb_spec fd listener) as [->|Hf].
    - apply only_app; [apply incoming_only; assumption|]. destruct (handle_incoming_connection linux W a s) as [s1| | |] eqn:E1; try apply only_nil.
      apply IH; [exact (incoming_good _ _ _ _ _ _ _ _ Hl0 _ _ _ G E1)|exact (incoming_none _ _ app w0 _ _ _ N E1)|exact Ha'| |exact Hp'].
      exact (incoming_watched _ _ _ _ _ _ _ _ Hl0 _ _ _ G HW Hp E1).
    - apply only_app; [apply event_only; assumption|]. destruct (handle_connection_events linux W app cs T fd ev a s) as [s1| | |] eqn:E1; try apply only_nil.
      destruct (events_good _ _ _ _ _ _ _ _ Hl0 _ _ _ _ _ G N Ha E1) as [G1 N1]. apply IH; [exact G1|exact N1|exact Ha'| |exact Hp'].
      exact (events_watched _ _ _ _ _ _ _ _ Hl0 _ _ _ _ _ Hf G N Ha HW Hp E1).
  Qed.
  Lemma reap_only clock l : forall s, good s -> all_watched listener W s -> NoDup (map fst l) -> (forall fd e, In (fd, e) l -> conn_at W s fd e) ->
    only (reap_messages v linux W clock l s).
  Proof.
    induction l as [|[fd e] l IH]; intros s G HW Hd Hl; [apply only_nil|]. cbn [reap_messages]. cbn [map fst] in Hd.
    inversion Hd as [|x y Hd1 Hd2]; subst x y. assert (C : conn_at W s fd e) by (apply Hl; now left).
    destruct (has_timed_out (clock fd) (e_conn e)); [|apply IH; [exact G|exact HW|exact Hd2|intros x b K; apply Hl; now right]].
    pose proof (good_open _ _ _ _ _ _ _ _ Hl0 _ _ _ G C) as O. pose proof (drop_remove_erase linux W fd e s C O) as D.
    apply only_app; [now apply only_one|]. destruct (proj2 HW fd e C) as (x & X & _). rewrite (remove_fine fd e s G C) by congruence.
    apply IH; [exact (dropped_good _ _ _ _ _ _ _ _ Hl0 _ _ _ _ G C D)| |exact Hd2|].
    - apply dropped_watched with fd e s; [|exact D|exact HW]. now apply (g_desc _ _ _ _ _ _ _ _ _ G) in C.
    - intros z b K. unfold conn_at. rewrite (dr_conns _ _ _ _ _ D), mget_mdel. destruct (Z.eqb_spec z fd) as [->|_]; [|apply Hl; now right].
      exfalso. apply Hd1. apply in_map_iff. exists (fd, b). auto.
  Qed.
  Lemma iterate_only it s : reached linux listener W app cs T k0 w0 true enough_resources [] s -> iteration_ok it -> enough_resources it ->
    only (iterate_messages v linux listener W app cs T it s).
  Proof.
    intros R Hok He. destruct (reached_good _ _ _ _ _ _ _ _ Hk0 Hl0 _ _ _ _ R) as (G & N & _). destruct (reached_watched _ _ _ _ _ _ _ _ Hk0 Hl0 _ _ R) as (HW & _).
    destruct (g_limit _ _ _ _ _ _ _ _ s G) as (_ & M & _). unfold iterate_messages.
    apply only_app; [apply reap_only; [exact G|exact HW|exact M|intros fd e K; exact (proj2 (mget_entry (conns s) M fd e) K)]|].
    apply (reached_reap _ _ _ _ _ _ _ _ _ _ (it_clock it)) in R. set (s1 := reap_idle_connections linux W (it_clock it) s) in *.
    destruct (poller_poll linux (it_wait it) (sv_poller W s1) (ker s1)) as [events p] eqn:Ep.
    apply (reached_poll _ _ _ _ _ _ _ _ _ _ _ _ _ _ R Hok He) in Ep. apply only_app; [apply only_poll|].
    destruct events as [evs|x]; [|apply only_nil].
    destruct (reached_good _ _ _ _ _ _ _ _ Hk0 Hl0 _ _ _ _ Ep) as (G1 & N1 & A1). destruct (reached_watched _ _ _ _ _ _ _ _ Hk0 Hl0 _ _ Ep) as (HW1 & P1).
    now apply events_only.
  Qed.
  Lemma loop_only its : forall s, reached linux listener W app cs T k0 w0 true enough_resources [] s -> Forall iteration_ok its -> Forall enough_resources its ->
    only (loop_messages v linux listener W app cs T its s).
  Proof.
    induction its as [|it its IH]; intros s R Hok He; cbn [loop_messages]; (destruct (sv_stop W s); [now apply only_one|]); [apply only_nil|].
    apply Forall_cons_iff in Hok as [Hok Hok']. apply Forall_cons_iff in He as [He He']. apply only_app; [apply iterate_only; assumption|].
    destruct (iterate linux listener W app cs T it s) as [s1| | |] eqn:E; try apply only_nil. apply IH; [|exact Hok'|exact He'].
    exact (iterate_reached _ _ _ _ _ _ _ _ _ _ _ _ _ R Hok He E).
  Qed.
  Lemma start_only port made stopped its : Forall iteration_ok its -> Forall enough_resources its ->
    only (start_messages v linux listener W app cs T port made true stopped k0 w0 its).
  Proof.
    intros Hok He. unfold start_messages. destruct made; [|apply only_nil]. cbn [negb]. apply only_app; [now apply only_one|].
    apply only_app; [|apply loop_only; [apply reached_start|exact Hok|exact He]].
    unfold set_messages, epoll_ctl. destruct linux; [|apply only_nil]. cbn [sv_poller new_poller p_fds sv_kernel k_new k_open k_watch mhas mget].
    destruct Hk0 as (_ & _ & K3 & _). rewrite K3. unfold mhas. rewrite mget_mput, Z.eqb_refl. apply only_nil.
  Qed.

  (** ** Idle connections *)
  Definition idle_line (n : bytes) : message := Msg LWarn (str "closing connection due to inactivity (fd: " ++ n ++ str ")").
  Lemma remove_not_idle fd s n : ~ In (idle_line n) (remove_messages v linux W fd s).
  Proof using Type.
    clear Hk0 Hl0.
    unfold remove_messages. destruct linux; [|easy]. destruct (fst _); [easy|]. intros [K|[]].
    assert (X : begins (str "epoll_ctl") (m_text (idle_line n)) = true) by (rewrite <- K; reflexivity). discriminate.
  Qed.
  Lemma reap_lines clock l : forall s n, In (idle_line n) (reap_messages v linux W clock l s) <->
    exists fd e, In (fd, e) l /\ has_timed_out (clock fd) (e_conn e) = true /\ n = to_string fd.
  Proof using Type.
    clear Hk0 Hl0.
    induction l as [|[fd e] l IH]; intros s n; cbn [reap_messages]; [split; [easy|intros (a & b & [] & _)]|].
    destruct (has_timed_out (clock fd) (e_conn e)) eqn:E.
    - rewrite !in_app_iff, IH. split.
      + intros [[K|[]]|[K|(a & b & K)]]; [|now apply remove_not_idle in K|exists a, b; cbn [In]; tauto].
        exists fd, e. split; [now left|]. split; [exact E|]. unfold idle_line, warn in K.
        assert (X : m_text (Msg LWarn (str "closing connection due to inactivity (fd: " ++ to_string fd ++ str ")")) =
                    m_text (Msg LWarn (str "closing connection due to inactivity (fd: " ++ n ++ str ")"))) by now rewrite K.
        cbn [m_text] in X. apply app_inv_head, app_inv_tail in X. now symmetry.
      + intros (a & b & [K|K] & H1 & ->); [injection K as <- <-; left; now left|]. right. right. exists a, b. auto.
    - rewrite IH. split; intros (a & b & K & H1 & ->); exists a, b; [split; [now right|auto]|].
      destruct K as [K|K]; [injection K as <- <-; congruence|auto].
  Qed.
End Proofs.
