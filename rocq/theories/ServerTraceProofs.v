(** What the messages of the server tell at levels debug and trace. *)
From Verif Require Import Base BaseLemmas Huffman Http Conn SpecConn ConnBasic ConnTerm Poller Server SpecServer ServerProofs ServerReach
  AccessLog SpecApp AppProofs Messages DebugMessages HpackTrace SpecDebug ServerMessages SpecServerMessages ServerMessagesProofs ServerTrace SpecServerTrace.

(** ** Above level debug *)
Lemma louder_app a b : louder (a ++ b) = louder a ++ louder b.
Proof. apply filter_app. Qed.
Section Info.
  Variable v : voice.
  Variable linux : bool.
  Variable listener : Z.
  Variable tls : bool.
  Variable W : Type.
  Variable app : request -> W -> W * app_answer.
  Variable cs : bool.
  Variable T : tree.

  Lemma loud_closing fd : louder (closing_trace fd) = [].
  Proof. unfold closing_trace. now destruct (fd >=? 0). Qed.
  Lemma loud_destroy fd : louder (destroy_trace tls fd) = [].
  Proof. unfold destroy_trace. rewrite louder_app, loud_closing. now destruct tls. Qed.
  Lemma loud_erase fd s : louder (erase_trace tls W fd s) = [].
  Proof. unfold erase_trace. destruct (mget _ _); [apply loud_destroy|reflexivity]. Qed.
  Lemma loud_set ok fd ev s : louder (set_messages v linux W ok fd ev s) = set_messages v linux W ok fd ev s.
  Proof. unfold set_messages. destruct linux; [|reflexivity]. now destruct (fst _). Qed.
  Lemma loud_remove fd s : louder (remove_messages v linux W fd s) = remove_messages v linux W fd s.
  Proof. unfold remove_messages. destruct linux; [|reflexivity]. now destruct (fst _). Qed.
  Lemma loud_accept n : louder (accept_messages v n) = accept_messages v n.
  Proof. unfold accept_messages. now destruct (v_nodelay v n). Qed.
  Lemma loud_ip n : louder (ip_messages v n) = ip_messages v n.
  Proof. unfold ip_messages. now destruct (v_peer v n). Qed.
  Lemma loud_poll e : louder (poll_trace v linux e) = poll_messages v linux e.
  Proof. unfold poll_trace, poll_messages. destruct linux; [reflexivity|]. now destruct e as [|[]]. Qed.
  Lemma loud_accepted a k : louder (accept_trace v a k) = match try_accept a k with Ret (Some _, _) => accept_messages v (k_objects k) | _ => [] end.
  Proof.
    unfold accept_trace. destruct (try_accept a k) as [[[fd|] k']| | |]; [apply loud_accept|reflexivity| |reflexivity|reflexivity].
    destruct (ar_accept a); [apply loud_closing|reflexivity|reflexivity].
  Qed.
  Lemma loud_establish a s : louder (establish_trace v linux W a s) = establish_messages v linux W a s.
  Proof.
    unfold establish_trace, establish_messages. rewrite louder_app, loud_accepted. destruct (try_accept a (sv_kernel W s)) as [[[fd|] k]| | |]; try reflexivity.
    rewrite !louder_app, loud_ip. do 3 f_equal. destruct (ar_transport a); [|apply loud_closing]. rewrite louder_app, loud_set. reflexivity.
  Qed.
  Lemma loud_reap clock l : forall s, louder (reap_trace v linux tls W clock l s) = reap_messages v linux W clock l s.
  Proof.
    induction l as [|[fd e] l IH]; intros s; [reflexivity|]. cbn [reap_trace reap_messages]. destruct (has_timed_out _ _); [|apply IH].
    rewrite !louder_app, loud_remove, loud_erase, IH. reflexivity.
  Qed.
  Lemma loud_incoming a s : louder (incoming_trace v linux W a s) = incoming_messages v linux W a s.
  Proof.
    unfold incoming_trace, incoming_messages. destruct (negb _); [apply loud_establish|]. rewrite louder_app, loud_accepted.
    destruct (try_accept a (sv_kernel W s)) as [[[fd|] k]| | |]; try reflexivity. rewrite !louder_app, loud_ip, loud_closing, app_nil_r. reflexivity.
  Qed.
  Lemma loud_event fd ev a s : louder (event_trace v linux tls W app cs T fd ev a s) = event_messages v linux W app cs T fd ev a s.
  Proof.
    unfold event_trace, event_messages. destruct (mget fd (sv_conns W s)) as [e|]; [|reflexivity].
    destruct (_ || _); [rewrite !louder_app, loud_erase, loud_remove; reflexivity|]. destruct (_ && _); [reflexivity|].
    rewrite louder_app. f_equal; [destruct (has_event ev PWrite); [apply loud_set|reflexivity]|].
    cbv zeta. destruct (process _ _ _ _ _ _ _) as [[[[[] c] tr] w]| | |]; try reflexivity.
    - rewrite louder_app, loud_set. reflexivity.
    - rewrite !louder_app, loud_remove, loud_erase, app_nil_r. reflexivity.
  Qed.
  Lemma loud_events evs : forall s, louder (events_trace v linux listener tls W app cs T evs s) = events_messages v linux listener W app cs T evs s.
  Proof.
    induction evs as [|[fd [ev a]] evs IH]; intros s; [reflexivity|]. cbn [events_trace events_messages]. rewrite louder_app. f_equal.
    - destruct (fd =? listener); [apply loud_incoming|apply loud_event].
    - destruct (if fd =? listener then _ else _); try reflexivity. apply IH.
  Qed.
  Lemma loud_iterate it s : louder (iterate_trace v linux listener tls W app cs T it s) = iterate_messages v linux listener W app cs T it s.
  Proof.
    unfold iterate_trace, iterate_messages. rewrite louder_app, loud_reap. f_equal. cbv zeta. destruct (poller_poll _ _ _ _) as [events p].
    rewrite louder_app, loud_poll. f_equal. destruct events; [apply loud_events|reflexivity].
  Qed.
  Lemma loud_loop its : forall s, louder (loop_trace v linux listener tls W app cs T its s) = loop_messages v linux listener W app cs T its s.
  Proof.
    induction its as [|it its IH]; intros s; cbn [loop_trace loop_messages]; (destruct (sv_stop W s); [reflexivity|]); [reflexivity|].
    rewrite louder_app, loud_iterate. f_equal. destruct (iterate _ _ _ _ _ _ _ _); try reflexivity. apply IH.
  Qed.
  Lemma loud_start port made ok stopped k0 w0 its :
    louder (start_trace v linux listener tls W app cs T port made ok stopped k0 w0 its) = start_messages v linux listener W app cs T port made ok stopped k0 w0 its.
  Proof.
    unfold start_trace, start_messages. destruct (negb made); [reflexivity|]. rewrite !louder_app, loud_set, loud_loop.
    assert (E : forall x : out (bool * server W), louder match x with Ret (true, _) | Throw => closing_trace listener | _ => [] end = []).
    { intros [[[] s]| | |]; try reflexivity; apply loud_closing. }
    rewrite E, app_nil_r. reflexivity.
  Qed.
End Info.

(** ** Counting *)
Definition still (m : message) : Prop :=
  tells_of_new m = false /\ tells_of_loss m = false /\ tells_of_close m = false /\ tells_of_free m = false.
Record kept (tls : bool) (n c g n' c' g' : Z) (ms : list message) : Prop := {
  k_tally : tally n ms = n';
  k_totals : true_totals n ms;
  k_closes : closes ms = c' - c;
  k_frees : frees ms = if tls then g' - g else 0 }.
Lemma tally_app n a b : tally n (a ++ b) = tally (tally n a) b.
Proof. apply fold_left_app. Qed.
Lemma true_totals_app a : forall n b, true_totals n a -> true_totals (tally n a) b -> true_totals n (a ++ b).
Proof.
  induction a as [|m a IH]; intros n b Ha Hb; [exact Hb|]. cbn [app true_totals] in *. destruct Ha as [H1 H2]. split; [exact H1|]. now apply IH.
Qed.
Lemma kept_app tls n c g n1 c1 g1 n2 c2 g2 a b : kept tls n c g n1 c1 g1 a -> kept tls n1 c1 g1 n2 c2 g2 b -> kept tls n c g n2 c2 g2 (a ++ b).
Proof.
  intros [A1 A2 A3 A4] [B1 B2 B3 B4]. split.
  - now rewrite tally_app, A1.
  - apply true_totals_app; [exact A2|]. now rewrite A1.
  - unfold closes in *. rewrite filter_app, lenZ_app. lia.
  - unfold frees in *. rewrite filter_app, lenZ_app. destruct tls; lia.
Qed.
Lemma kept_nil tls n c g : kept tls n c g n c g [].
Proof. split; [reflexivity|exact I|unfold closes; cbn; lia|unfold frees; destruct tls; cbn; lia]. Qed.
Lemma kept_still tls n c g ms : Forall still ms -> kept tls n c g n c g ms.
Proof.
  induction 1 as [|m ms (H1 & H2 & H3 & H4) _ IH]; [apply kept_nil|]. destruct IH as [I1 I2 I3 I4]. split; unfold tally, closes, frees in *; cbn [fold_left true_totals filter]; unfold shift; rewrite ?H1, ?H2, ?H3, ?H4; rewrite ?Z.sub_0_r, ?Z.add_0_r; auto.
  split; [congruence|exact I2].
Qed.
(** One line alone. *)
Lemma kept_one tls n c g m (new loss close free : bool) :
  tells_of_new m = new -> tells_of_loss m = loss -> tells_of_close m = close -> tells_of_free m = free ->
  (new = true -> exists t, m_text m = str "HTTP connection established. total = " ++ t /\ decimal t (n + 1)) -> free && negb tls = false ->
  kept tls n c g (n + (if new then 1 else 0) - (if loss then 1 else 0)) (c + if close then 1 else 0) (g + if free then 1 else 0) [m].
Proof.
  intros H1 H2 H3 H4 H5 H6. split; unfold tally, closes, frees; cbn [fold_left true_totals filter]; unfold shift; rewrite ?H1, ?H2, ?H3, ?H4.
  - lia.
  - split; [exact H5|exact I].
  - unfold lenZ. destruct close; cbn [length]; lia.
  - unfold lenZ. destruct free, tls; cbn [length]; try discriminate H6; lia.
Qed.
Lemma kept_to tls n c g n' c' g' n1 c1 g1 ms : kept tls n c g n1 c1 g1 ms -> n1 = n' -> c1 = c' -> g1 = g' -> kept tls n c g n' c' g' ms.
Proof. intros H <- <- <-. exact H. Qed.
Lemma kept_new tls n c g : 0 <= n -> kept tls n c g (n + 1) c g [info (str "HTTP connection established. total = " ++ to_string (n + 1))].
Proof.
  intros Hn. eapply kept_to; [apply (kept_one tls n c g _ true false false false); try reflexivity|lia|lia|lia].
  intros _. exists (to_string (n + 1)). split; [reflexivity|]. apply to_string_spec. lia.
Qed.
Lemma kept_loss tls n c g m : tells_of_new m = false -> tells_of_loss m = true -> tells_of_close m = false -> tells_of_free m = false ->
  kept tls n c g (n - 1) c g [m].
Proof. intros. eapply kept_to; [apply (kept_one tls n c g _ false true false false); auto; discriminate|lia|lia|lia]. Qed.
Lemma kept_close tls n c g fd : 0 <= fd -> kept tls n c g n (c + 1) g (closing_trace fd).
Proof.
  intros H. unfold closing_trace. apply Z.leb_le in H. rewrite Z.geb_leb, H.
  eapply kept_to; [apply (kept_one tls n c g _ false false true false); try reflexivity; discriminate|lia|lia|lia].
Qed.
Lemma kept_destroy tls n c g fd : 0 <= fd -> kept tls n c g n (c + 1) (g + 1) (destroy_trace tls fd).
Proof.
  intros H. unfold destroy_trace. destruct tls.
  - eapply kept_app; [apply (kept_one true n c g _ false false false true); try reflexivity; discriminate|].
    eapply kept_to; [apply kept_close; exact H|lia|lia|lia].
  - destruct (kept_close false n c g fd H) as [K1 K2 K3 K4]. now split.
Qed.

Section Proofs.
  Variable v : voice.
  Variable linux : bool.
  Variable listener : Z.
  Variable tls : bool.
  Variable W : Type.
  Variable app : request -> W -> W * app_answer.
  Variable cs : bool.
  Variable T : tree.
  Variable k0 : kernel.
  Variable w0 : W.
  Hypothesis Hk0 : in_order k0.
  Hypothesis Hl0 : 0 <= listener /\ mget listener (k_open k0) = None.

  Notation server := (server W).
  Notation conns s := (sv_conns W s).
  Notation pfds s := (p_fds (sv_poller W s)).
  Notation ker s := (sv_kernel W s).
  Notation good := (good linux listener W app cs T k0 w0).
  Notation num s := (lenZ (conns s)).
  Notation clo s := (lenZ (k_closed (ker s))).
  Notation gon s := (lenZ (sv_gone W s)).
  Notation kept s s' := (kept tls (num s) (clo s) (gon s) (num s') (clo s') (gon s')).

  Lemma set_still ok fd ev s : Forall still (set_messages v linux W ok fd ev s).
  Proof using Type.
    unfold set_messages. destruct linux; [|constructor]. destruct (fst _); constructor; [repeat split|constructor].
  Qed.
  Lemma remove_still fd s : Forall still (remove_messages v linux W fd s).
  Proof using Type.
    unfold remove_messages. destruct linux; [|constructor]. destruct (fst _); constructor; [repeat split|constructor].
  Qed.
  Lemma accept_still n : Forall still (accept_messages v n).
  Proof using Type. unfold accept_messages. destruct (v_nodelay v n); constructor; [repeat split|constructor]. Qed.
  Lemma ip_still n : Forall still (ip_messages v n).
  Proof using Type. unfold ip_messages. destruct (v_peer v n); constructor; try apply Forall_nil; repeat split. Qed.
  Lemma poll_still e : Forall still (poll_trace v linux e).
  Proof using Type.
    unfold poll_trace, poll_messages. destruct linux; [constructor|]. destruct e as [|[]]; constructor; try apply Forall_nil; repeat split.
  Qed.

  Lemma dropped_counts fd e s s' : good s -> conn_at W s fd e -> dropped W fd e s s' -> num s' = num s - 1 /\ clo s' = clo s + 1 /\ gon s' = gon s + 1.
  Proof.
    intros G C D. split; [exact (proj1 (dropped_num linux listener W app cs T k0 w0 fd e s s' G C D))|].
    rewrite (dr_closed _ _ _ _ _ D), (dr_gone _ _ _ _ _ D), !lenZ_app. unfold lenZ. cbn [length]. lia.
  Qed.
  Lemma set_counts ok fd ev s : num (set linux W ok fd ev s) = num s /\ clo (set linux W ok fd ev s) = clo s /\ gon (set linux W ok fd ev s) = gon s.
  Proof using Type.
    clear Hk0 Hl0. split; [reflexivity|]. split; [|reflexivity]. unfold set, poller_set, set_poller, epoll_ctl. destruct linux; [|reflexivity].
    destruct (negb (mhas fd (k_open (ker s)))); [reflexivity|]. destruct (mhas fd (pfds s)), (mhas fd (k_watch (ker s))), ok; reflexivity.
  Qed.
  Lemma drop_lines fd e s s' l : good s -> conn_at W s fd e -> dropped W fd e s s' -> Forall still l ->
    kept s s' ([warn (str "closing connection due to inactivity (fd: " ++ to_string fd ++ str ")")] ++ l ++ destroy_trace tls fd) /\
    kept s s' ([info (str "closing connection")] ++ l ++ destroy_trace tls fd) /\
    kept s s' ([debug (str "poll indicated connection closed")] ++ destroy_trace tls fd ++ l).
  Proof.
    intros G C D L. destruct (dropped_counts _ _ _ _ G C D) as (-> & -> & ->).
    assert (F : 0 <= fd) by now apply (g_desc _ _ _ _ _ _ _ _ _ G) in C.
    split; [|split]; (eapply kept_app; [now apply kept_loss|]); (eapply kept_app; [first [apply kept_still; exact L|apply kept_destroy; exact F]|]);
      first [apply kept_still; exact L|apply kept_destroy; exact F].
  Qed.

  Lemma incoming_kept a s s' : good s -> handle_incoming_connection linux W a s = Ret s' -> kept s s' (incoming_trace v linux W a s).
  Proof.
    intros G E. unfold handle_incoming_connection, incoming_trace, establish_conn, establish_trace, accept_trace in *.
    destruct (negb (num s >=? MAX_CONNECTIONS)) eqn:Ec.
    - destruct (try_accept a (ker s)) as [[fd k]| | |] eqn:Ea; try discriminate E. cbn [obind] in E.
      apply try_accept_cases in Ea as [(-> & ->)|(x & -> & H1 & H2 & ->)].
      + injection E as <-. rewrite set_kernel_same. cbn [List.app]. apply kept_nil.
      + destruct (ar_transport a); [|discriminate E]. cbn [negb] in E. injection E as <-.
        assert (Hx : mget x (conns s) = None).
        { destruct (mget x (conns s)) as [e|] eqn:Ex; [|reflexivity]. rewrite (good_open _ _ _ _ _ _ _ _ Hl0 _ _ _ G Ex) in H2. discriminate. }
        match goal with |- context [num (set linux W ?o ?f ?e ?y)] => destruct (set_counts o f e y) as (-> & -> & ->) end.
        cbn [set_conns set_kernel sv_conns sv_kernel sv_gone k_new k_closed]. unfold mput. rewrite !lenZ_cons, (mdel_absent _ _ Hx).
        replace (1 + num s) with (num s + 1) by lia.
        eapply kept_app; [apply kept_still, accept_still|]. eapply kept_app; [apply kept_still, ip_still|].
        eapply kept_app; [apply kept_still; constructor; [repeat split|constructor]|]. eapply kept_app; [apply kept_new; apply lenZ_nonneg|].
        apply kept_still, set_still.
    - destruct (try_accept a (ker s)) as [[fd k]| | |] eqn:Ea; try discriminate E. cbn [obind] in E.
      apply try_accept_cases in Ea as [(-> & ->)|(x & -> & H1 & H2 & ->)]; injection E as <-.
      + rewrite set_kernel_same. cbn [List.app]. apply kept_nil.
      + cbn [set_kernel sv_conns sv_kernel sv_gone].
        assert (O : lenZ (k_closed (k_close x (k_new x (ker s)))) = clo s + 1).
        { unfold k_close. destruct (mget x (k_open (k_new x (ker s)))); cbn [k_closed k_new]; rewrite lenZ_app; reflexivity. }
        rewrite O. eapply kept_app; [apply kept_still, accept_still|]. eapply kept_app; [apply kept_still, ip_still|].
        eapply kept_app; [apply kept_still; constructor; [repeat split|constructor]|]. now apply kept_close.
  Qed.
  (** The line about the fd, and what else an event brings. *)
  Lemma event_kept fd ev a s s' : good s -> none_discarded W s -> scripts_ok (ar_scripts a) ->
    handle_connection_events linux W app cs T fd ev a s = Ret s' -> kept s s' (event_trace v linux tls W app cs T fd ev a s).
  Proof.
    intros G N Hs E. unfold handle_connection_events, event_trace in *.
    destruct (mget fd (conns s)) as [e|] eqn:Ec; [|injection E as <-; apply kept_nil].
    pose proof (good_open _ _ _ _ _ _ _ _ Hl0 _ _ _ G Ec) as O.
    destruct (has_event ev PError || has_event ev PHangup).
    { injection E as <-. unfold erase_trace. rewrite Ec.
      apply (drop_lines fd e s _ _ G Ec (drop_erase_remove linux W fd e s Ec O) (remove_still fd (erase W fd s))). }
    destruct (negb (has_event ev PRead) && negb (has_event ev PWrite)); [injection E as <-; apply kept_nil|].
    set (s1 := if has_event ev PWrite then _ else _) in *.
    assert (H1 : (num s1 = num s /\ clo s1 = clo s /\ gon s1 = gon s) /\ conns s1 = conns s /\ good s1).
    { unfold s1. destruct (has_event ev PWrite); [|auto]. split; [apply set_counts|]. split; [reflexivity|].
      apply set_good; [exact Hl0|exact G|right; now exists e]. }
    destruct H1 as ((Hn1 & Ho1 & Hg1) & Hc1 & G1). rewrite <- Hn1, <- Ho1, <- Hg1.
    assert (N1 : none_discarded W s1) by (intros x b; unfold conn_at; rewrite Hc1; apply N).
    assert (Hs1 : conn_at W s1 fd e) by (unfold conn_at; now rewrite Hc1).
    eapply kept_app; [apply kept_still; destruct (has_event ev PWrite); [apply set_still|constructor]|].
    clearbody s1. destruct (process W app cs T (ar_scripts a) (e_conn e) (sv_world W s1)) as [[[[r c] tr] w]| | |] eqn:Ep; cbn [obind] in E; try discriminate E.
    set (e' := Entry (e_socket e) (e_born e) c (Some r) (e_trace e ++ tr)) in *. set (s2 := set_world W w _) in *.
    assert (G2 : good s2).
    { eapply updated_good; [exact Hl0|exact G1|exact Hs1|reflexivity|]. unfold own_life, e'. cbn [e_born e_result e_conn e_trace].
      eapply session_process; [exact (proj1 (g_lives _ _ _ _ _ _ _ _ _ G1) fd e Hs1)|exact (N1 fd e Hs1)|exact Hs|exact I|exact Ep]. }
    assert (Hn2 : num s2 = num s1 /\ clo s2 = clo s1 /\ gon s2 = gon s1).
    { split; [|split; reflexivity]. unfold s2. cbn [set_world set_conns sv_conns]. apply (put_num W app w0); [apply (g_limit _ _ _ _ _ _ _ _ _ G1)|]. unfold conn_at in Hs1. congruence. }
    destruct Hn2 as (Hn2 & Ho2 & Hg2). rewrite <- Hn2, <- Ho2, <- Hg2.
    assert (C2 : conn_at W s2 fd e') by (unfold conn_at, s2; cbn [set_world set_conns sv_conns]; now rewrite mget_mput, Z.eqb_refl).
    clearbody s2 e'. destruct r; injection E as <-.
    - apply kept_nil.
    - match goal with |- context [num (set linux W ?o ?f ?e s2)] => destruct (set_counts o f e s2) as (-> & -> & ->) end.
      eapply kept_app; apply kept_still; [constructor; [repeat split|constructor]|apply set_still].
    - pose proof (good_open _ _ _ _ _ _ _ _ Hl0 _ _ _ G2 C2) as O2. unfold erase_trace, remove, set_poller. cbn [sv_conns]. unfold conn_at in C2. rewrite C2.
      apply (drop_lines fd e' s2 _ _ G2 C2 (drop_remove_erase linux W fd e' s2 C2 O2) (remove_still fd s2)).
  Qed.
  Lemma events_kept evs : forall s s', good s -> none_discarded W s -> Forall around_ok evs ->
    handle_events linux listener W app cs T evs s = Ret s' -> kept s s' (events_trace v linux listener tls W app cs T evs s).
  Proof.
    induction evs as [|[fd [ev a]] evs IH]; intros s s' G N Ha E; [injection E as <-; apply kept_nil|]. cbn [handle_events events_trace] in *.
    apply Forall_cons_iff in Ha as [Ha Ha']. destruct (fd =? listener).
    - destruct (handle_incoming_connection linux W a s) as [s1| | |] eqn:E1; try discriminate E. cbn [obind] in E.
      eapply kept_app; [exact (incoming_kept _ _ _ G E1)|]. apply IH; [exact (incoming_good _ _ _ _ _ _ _ _ Hl0 _ _ _ G E1)|exact (incoming_none _ _ app w0 _ _ _ N E1)|exact Ha'|exact E].
    - destruct (handle_connection_events linux W app cs T fd ev a s) as [s1| | |] eqn:E1; try discriminate E. cbn [obind] in E.
      eapply kept_app; [exact (event_kept _ _ _ _ _ G N Ha E1)|].
      destruct (events_good _ _ _ _ _ _ _ _ Hl0 _ _ _ _ _ G N Ha E1) as [G1 N1]. now apply IH.
  Qed.
  Lemma reap_kept clock l : forall s, good s -> NoDup (map fst l) -> (forall fd e, In (fd, e) l -> conn_at W s fd e) ->
    kept s (reap linux W clock l s) (reap_trace v linux tls W clock l s).
  Proof.
    induction l as [|[fd e] l IH]; intros s G Hd Hl; [apply kept_nil|]. cbn [reap reap_trace]. cbn [map fst] in Hd.
    inversion Hd as [|x y Hd1 Hd2]; subst x y. assert (C : conn_at W s fd e) by (apply Hl; now left).
    destruct (has_timed_out (clock fd) (e_conn e)); [|apply IH; [exact G|exact Hd2|intros x b K; apply Hl; now right]].
    pose proof (good_open _ _ _ _ _ _ _ _ Hl0 _ _ _ G C) as O. pose proof (drop_remove_erase linux W fd e s C O) as D.
    assert (X : erase_trace tls W fd (remove linux W fd s) = destroy_trace tls fd).
    { unfold erase_trace, remove, set_poller. cbn [sv_conns]. unfold conn_at in C. now rewrite C. }
    rewrite X, (app_assoc (remove_messages _ _ _ _ _)), app_assoc.
    eapply kept_app; [apply (drop_lines fd e s _ _ G C D (remove_still fd s))|].
    apply IH; [exact (dropped_good _ _ _ _ _ _ _ _ Hl0 _ _ _ _ G C D)|exact Hd2|].
    intros x b K. unfold conn_at. rewrite (dr_conns _ _ _ _ _ D), mget_mdel. destruct (Z.eqb_spec x fd) as [->|_]; [|apply Hl; now right].
    exfalso. apply Hd1. apply in_map_iff. exists (fd, b). auto.
  Qed.
  Lemma stops_counts l : forall s, num (fold_left (fun s r => stop W r s) l s) = num s /\ clo (fold_left (fun s r => stop W r s) l s) = clo s /\
    gon (fold_left (fun s r => stop W r s) l s) = gon s.
  Proof using Type. clear Hk0 Hl0. induction l as [|r l IH]; intros s; [auto|]. cbn [fold_left]. exact (IH (stop W r s)). Qed.
  Lemma iterate_kept it s s' : good s -> none_discarded W s -> iteration_ok it ->
    iterate linux listener W app cs T it s = Ret s' -> kept s s' (iterate_trace v linux listener tls W app cs T it s).
  Proof.
    intros G N Hok E. destruct (g_limit _ _ _ _ _ _ _ _ s G) as (_ & M & _).
    pose proof (batch_spec linux listener W app cs T k0 w0 Hl0 it s G N) as (B1 & B2 & _ & _ & B5). specialize (B5 Hok). unfold batch in B1, B2, B5.
    unfold iterate, iterate_trace in *.
    eapply kept_app; [apply reap_kept; [exact G|exact M|intros fd e K; exact (proj2 (mget_entry (conns s) M fd e) K)]|].
    fold (reap_idle_connections linux W (it_clock it) s) in *. set (s1 := reap_idle_connections linux W (it_clock it) s) in *.
    destruct (poller_poll linux (it_wait it) (sv_poller W s1) (ker s1)) as [events p]. cbn [fst snd] in *.
    eapply kept_app; [apply kept_still, poll_still|].
    destruct events as [evs|x]; cbn [obind] in E.
    - destruct (handle_events linux listener W app cs T evs _) as [s2| | |] eqn:E2; try discriminate E. cbn [obind] in E. injection E as <-.
      destruct (stops_counts (it_stops it) s2) as (-> & -> & ->). exact (events_kept _ _ _ B1 B2 B5 E2).
    - injection E as <-. destruct (stops_counts (it_stops it) (set_poller W (p, ker s1) s1)) as (-> & -> & ->). apply kept_nil.
  Qed.
  Lemma bye_kept n c g x : ServerTraceProofs.kept tls n c g n c g [info (str "server shutting down (reason: " ++ x)].
  Proof using Type. apply kept_still. constructor; [repeat split|constructor]. Qed.
  Lemma loop_kept its : forall s b s', good s -> none_discarded W s -> Forall iteration_ok its ->
    loop linux listener W app cs T its s = Ret (b, s') -> kept s s' (loop_trace v linux listener tls W app cs T its s).
  Proof.
    induction its as [|it its IH]; intros s b s' G N Hok E; cbn [loop loop_trace] in *.
    - destruct (sv_stop W s); injection E as _ <-; [apply bye_kept|apply kept_nil].
    - destruct (sv_stop W s); [injection E as _ <-; apply bye_kept|].
      apply Forall_cons_iff in Hok as [Hok Hok'].
      destruct (iterate linux listener W app cs T it s) as [s1| | |] eqn:E1; try discriminate E. cbn [obind] in E.
      destruct (iterate_good _ _ _ _ _ _ _ _ Hl0 _ _ _ G N Hok E1) as [G1 N1].
      eapply kept_app; [exact (iterate_kept _ _ _ G N Hok E1)|]. exact (IH _ _ _ G1 N1 Hok' E).
  Qed.
  Lemma start_kept port made ok stopped its b s : Forall iteration_ok its ->
    start linux listener W app cs T made ok stopped k0 w0 its = Ret (b, s) ->
    ServerTraceProofs.kept tls 0 0 0 (num s) (clo s + if b then 1 else 0) (gon s) (start_trace v linux listener tls W app cs T port made ok stopped k0 w0 its).
  Proof.
    unfold start, start_trace. destruct made; [|discriminate]. cbn [negb]. intros Hok E. rewrite E.
    eapply kept_app; [apply kept_still; constructor; [repeat split|constructor]|].
    eapply kept_app; [apply kept_still, set_still|].
    destruct (first_good linux listener W app cs T k0 w0 Hk0 Hl0 ok stopped) as [G N]. pose proof (loop_kept its _ _ _ G N Hok E) as R.
    unfold first_state in R. match type of R with context [num (set linux W ?o ?f ?e ?y)] => destruct (set_counts o f e y) as (A & B & C) end.
    rewrite A, B, C in R. cbn [sv_conns sv_kernel sv_gone k_new k_closed] in R. destruct Hk0 as (_ & _ & _ & K4). rewrite K4 in R.
    eapply kept_app; [exact R|]. destruct b; [apply kept_close; exact (proj1 Hl0)|]. rewrite Z.add_0_r. apply kept_nil.
  Qed.

  (** ** What one event brings *)
  Definition telling (m : message) : bool :=
    tells_of_close m || says 0 "will poll write events for fd " m || says 1 "poll indicated connection closed" m.
  Lemma telling_in x ms : telling x = true -> (In x ms <-> In x (filter telling ms)).
  Proof using Type. clear Hk0 Hl0. intros H. rewrite filter_In. tauto. Qed.
  Lemma dull l : Forall (fun m => telling m = false) l -> filter telling l = [].
  Proof using Type. clear Hk0 Hl0. induction 1 as [|m l H _ IH]; [reflexivity|]. cbn [filter]. now rewrite H. Qed.
  Lemma set_dull ok fd ev s : filter telling (set_messages v linux W ok fd ev s) = [].
  Proof using Type. clear Hk0 Hl0. unfold set_messages. destruct linux; [|reflexivity]. now destruct (fst _). Qed.
  Lemma remove_dull fd s : filter telling (remove_messages v linux W fd s) = [].
  Proof using Type. clear Hk0 Hl0. unfold remove_messages. destruct linux; [|reflexivity]. now destruct (fst _). Qed.
  Lemma accept_dull n : filter telling (accept_messages v n) = [].
  Proof using Type. clear Hk0 Hl0. unfold accept_messages. now destruct (v_nodelay v n). Qed.
  Lemma ip_dull n : filter telling (ip_messages v n) = [].
  Proof using Type. clear Hk0 Hl0. unfold ip_messages. now destruct (v_peer v n). Qed.
  Lemma destroy_telling fd : 0 <= fd -> filter telling (destroy_trace tls fd) = [close_line (to_string fd)].
  Proof using Type. clear Hk0 Hl0. intros H. unfold destroy_trace, closing_trace. apply Z.leb_le in H. rewrite Z.geb_leb, H. now destruct tls. Qed.
  Lemma set_open ok fd ev s : k_open (ker (set linux W ok fd ev s)) = k_open (ker s).
  Proof using Type.
    clear Hk0 Hl0. unfold set, poller_set, set_poller, epoll_ctl. destruct linux; [|reflexivity].
    destruct (negb (mhas fd (k_open (ker s)))); [reflexivity|]. destruct (mhas fd (pfds s)), (mhas fd (k_watch (ker s))), ok; reflexivity.
  Qed.

  Definition broken (m : Z) : bool := has_event m PError || has_event m PHangup.
  Definition ready (m : Z) : bool := has_event m PRead || has_event m PWrite.
  Lemma event_lines fd m a s s' : good s -> none_discarded W s -> scripts_ok (ar_scripts a) ->
    handle_connection_events linux W app cs T fd m a s = Ret s' ->
    let lines := filter telling (event_trace v linux tls W app cs T fd m a s) in
    (lines = [] /\ k_open (ker s') = k_open (ker s) /\ ((exists e, conn_at W s fd e) -> broken m = false) /\
       (ready m = true -> forall e', conn_at W s' fd e' -> e_result e' <> Some WantWrite)) \/
    (lines = [hangup_line; close_line (to_string fd)] /\ broken m = true /\ exists e, conn_at W s fd e /\ dropped W fd e s s') \/
    (lines = [write_line (to_string fd)] /\ broken m = false /\ ready m = true /\ k_open (ker s') = k_open (ker s) /\
       exists e', conn_at W s' fd e' /\ e_result e' = Some WantWrite) \/
    (lines = [close_line (to_string fd)] /\ broken m = false /\ (exists e, conn_at W s fd e) /\ k_open (ker s') = mdel fd (k_open (ker s)) /\
       mget fd (conns s') = None).
  Proof.
    intros G N Hs E lines. subst lines. unfold handle_connection_events, event_trace in *. fold (broken m) in *.
    destruct (mget fd (conns s)) as [e|] eqn:Ec.
    2:{ injection E as <-. left. split; [reflexivity|]. split; [reflexivity|]. unfold conn_at. rewrite Ec. split; [now intros [e K]|]. intros _ e' K. discriminate. }
    pose proof (good_open _ _ _ _ _ _ _ _ Hl0 _ _ _ G Ec) as O. assert (F : 0 <= fd) by (eapply (g_desc _ _ _ _ _ _ _ _ _ G); exact Ec).
    destruct (broken m).
    { injection E as <-. right. left. unfold erase_trace. rewrite Ec, !filter_app, remove_dull, (destroy_telling fd F). split; [reflexivity|]. split; [reflexivity|].
      exists e. split; [exact Ec|]. now apply drop_erase_remove. }
    assert (Rm : negb (has_event m PRead) && negb (has_event m PWrite) = negb (ready m)) by (unfold ready; symmetry; apply negb_orb).
    rewrite Rm in *. destruct (ready m) eqn:Er; cbn [negb] in *.
    2:{ injection E as <-. left. split; [reflexivity|]. split; [reflexivity|]. split; [reflexivity|discriminate]. }
    set (s1 := if has_event m PWrite then _ else _) in *.
    assert (H1 : k_open (ker s1) = k_open (ker s) /\ conns s1 = conns s /\ good s1).
    { unfold s1. destruct (has_event m PWrite); [|auto]. split; [apply set_open|]. split; [reflexivity|].
      apply set_good; [exact Hl0|exact G|right; now exists e]. }
    destruct H1 as (Ho1 & Hc1 & G1). rewrite filter_app.
    assert (X : filter telling (if has_event m PWrite then set_messages v linux W (ctl_ok 0 a) fd PRead s else []) = []) by (destruct (has_event m PWrite); [apply set_dull|reflexivity]).
    rewrite X, app_nil_l. rewrite <- Ho1.
    assert (N1 : none_discarded W s1) by (intros x b; unfold conn_at; rewrite Hc1; apply N).
    assert (Hs1 : conn_at W s1 fd e) by (unfold conn_at; now rewrite Hc1).
    clearbody s1. clear X. destruct (process W app cs T (ar_scripts a) (e_conn e) (sv_world W s1)) as [[[[r c] tr] w]| | |] eqn:Ep; cbn [obind] in E; try discriminate E.
    set (e' := Entry (e_socket e) (e_born e) c (Some r) (e_trace e ++ tr)) in *. set (s2 := set_world W w _) in *.
    assert (G2 : good s2).
    { eapply updated_good; [exact Hl0|exact G1|exact Hs1|reflexivity|]. unfold own_life, e'. cbn [e_born e_result e_conn e_trace].
      eapply session_process; [exact (proj1 (g_lives _ _ _ _ _ _ _ _ _ G1) fd e Hs1)|exact (N1 fd e Hs1)|exact Hs|exact I|exact Ep]. }
    assert (C2 : conn_at W s2 fd e') by (unfold conn_at, s2; cbn [set_world set_conns sv_conns]; now rewrite mget_mput, Z.eqb_refl).
    assert (R2 : e_result e' = Some r) by reflexivity. assert (O2 : k_open (ker s2) = k_open (ker s1)) by reflexivity. rewrite <- O2.
    assert (Hc : exists e, conn_at W s fd e) by now exists e.
    clearbody s2 e'. destruct r; injection E as <-.
    - left. split; [reflexivity|]. split; [reflexivity|]. split; [reflexivity|]. intros _ x K. unfold conn_at in K, C2. rewrite C2 in K. injection K as <-. rewrite R2. discriminate.
    - right. right. left. rewrite filter_app, set_dull. split; [reflexivity|]. split; [reflexivity|]. split; [reflexivity|]. split; [apply set_open|].
      exists e'. split; [exact C2|exact R2].
    - right. right. right. pose proof (good_open _ _ _ _ _ _ _ _ Hl0 _ _ _ G2 C2) as Q2. pose proof (drop_remove_erase linux W fd e' s2 C2 Q2) as D.
      assert (Y : erase_trace tls W fd (remove linux W fd s2) = destroy_trace tls fd).
      { unfold erase_trace, remove, set_poller. cbn [sv_conns]. unfold conn_at in C2. now rewrite C2. }
      rewrite Y, !filter_app, remove_dull, (destroy_telling fd F). split; [reflexivity|]. split; [reflexivity|]. split; [exact Hc|]. split; [exact (dr_open _ _ _ _ _ D)|].
      rewrite (dr_conns _ _ _ _ _ D), mget_mdel, Z.eqb_refl. reflexivity.
  Qed.
  Lemma incoming_lines a s s' : good s -> handle_incoming_connection linux W a s = Ret s' ->
    let lines := filter telling (incoming_trace v linux W a s) in
    (lines = [] /\ forall fd, ar_accept a = AcceptFd fd true -> 0 <= fd -> mget fd (k_open (ker s)) = None -> mget fd (k_open (ker s')) <> None) \/
    (exists fd, lines = [close_line (to_string fd)] /\ ar_accept a = AcceptFd fd true /\ 0 <= fd /\ mget fd (k_open (ker s)) = None /\ mget fd (k_open (ker s')) = None).
  Proof using Type.
    clear Hk0 Hl0. intros G E lines. subst lines. unfold handle_incoming_connection, incoming_trace, establish_conn, establish_trace, accept_trace in *.
    assert (X : forall y k, try_accept a (ker s) = Ret (Some y, k) -> ar_accept a = AcceptFd y true /\ 0 <= y /\ mget y (k_open (ker s)) = None /\ k = k_new y (ker s)).
    { intros y k. unfold try_accept. destruct (ar_accept a) as [z nb| |]; try discriminate. destruct (Z.ltb_spec z 0); cbn [orb]; [discriminate|].
      destruct (mhas z (k_open (ker s))) eqn:Eh; [discriminate|]. apply mhas_false in Eh. destruct nb; [|discriminate]. intros [= <- <-]. auto. }
    assert (Y : forall k, try_accept a (ker s) = Ret (None, k) -> k = ker s /\ forall fd, ar_accept a = AcceptFd fd true -> 0 <= fd -> mget fd (k_open (ker s)) <> None).
    { intros k. unfold try_accept. destruct (ar_accept a) as [z nb| |]; try discriminate; [|intros [= <-]; split; [reflexivity|discriminate]].
      destruct (Z.ltb_spec z 0); cbn [orb]; [intros [= <-]; split; [reflexivity|intros fd [= <- _]; lia]|].
      destruct (mhas z (k_open (ker s))) eqn:Eh; [|destruct nb; discriminate]. apply mhas_true in Eh. intros [= <-]. split; [reflexivity|]. now intros fd [= <- _] _. }
    destruct (try_accept a (ker s)) as [[[x|] k]| | |]; cbn [obind] in E; try (destruct (negb (num s >=? MAX_CONNECTIONS)); discriminate E).
    - destruct (X _ _ eq_refl) as (X1 & X2 & X3 & ->). destruct (negb (num s >=? MAX_CONNECTIONS)).
      + left. destruct (ar_transport a); [|discriminate E]. cbn [negb] in E. injection E as <-. rewrite !filter_app, accept_dull, ip_dull, set_dull. split; [reflexivity|].
        intros fd K _ _. rewrite X1 in K. injection K as <-. rewrite set_open. cbn [set_conns set_kernel sv_kernel k_new k_open]. rewrite mget_mput, Z.eqb_refl. discriminate.
      + right. exists x. injection E as <-. rewrite !filter_app, accept_dull, ip_dull. split.
        { unfold closing_trace. apply Z.leb_le in X2. rewrite Z.geb_leb, X2. reflexivity. }
        split; [exact X1|]. split; [exact X2|]. split; [exact X3|]. unfold k_close. cbn [set_kernel sv_kernel k_new k_open]. rewrite mget_mput, Z.eqb_refl. cbn [k_open].
        rewrite mget_mdel, Z.eqb_refl. reflexivity.
    - destruct (Y _ eq_refl) as [-> Y2]. left. split; [now destruct (negb (num s >=? MAX_CONNECTIONS))|]. intros fd K1 K2 K3. exfalso. exact (Y2 fd K1 K2 K3).
  Qed.
  Lemma reap_lines clock l : forall s, good s -> NoDup (map fst l) -> (forall fd e, In (fd, e) l -> conn_at W s fd e) ->
    filter telling (reap_trace v linux tls W clock l s) =
      map (fun x => close_line (to_string (fst x))) (filter (fun x => has_timed_out (clock (fst x)) (e_conn (snd x))) l) /\
    forall fd, mget fd (k_open (ker (reap linux W clock l s))) =
      match mget fd l with Some e => if has_timed_out (clock fd) (e_conn e) then None else mget fd (k_open (ker s)) | None => mget fd (k_open (ker s)) end.
  Proof.
    induction l as [|[fd e] l IH]; intros s G Hd Hl; [split; reflexivity|]. cbn [reap reap_trace filter fst snd]. cbn [map fst] in Hd.
    inversion Hd as [|x y Hd1 Hd2]; subst x y. assert (C : conn_at W s fd e) by (apply Hl; now left).
    assert (Hfd : mget fd l = None) by (destruct (mget fd l) eqn:E; [exfalso; apply Hd1, mget_in; congruence|reflexivity]).
    destruct (has_timed_out (clock fd) (e_conn e)) eqn:Et.
    - pose proof (good_open _ _ _ _ _ _ _ _ Hl0 _ _ _ G C) as O. pose proof (drop_remove_erase linux W fd e s C O) as D.
      assert (F : 0 <= fd) by (eapply (g_desc _ _ _ _ _ _ _ _ _ G); exact C).
      assert (X : erase_trace tls W fd (remove linux W fd s) = destroy_trace tls fd).
      { unfold erase_trace, remove, set_poller. cbn [sv_conns]. unfold conn_at in C. now rewrite C. }
      destruct (IH _ (dropped_good _ _ _ _ _ _ _ _ Hl0 _ _ _ _ G C D) Hd2) as [I1 I2].
      { intros x b K. unfold conn_at. rewrite (dr_conns _ _ _ _ _ D), mget_mdel. destruct (Z.eqb_spec x fd) as [->|_]; [|apply Hl; now right].
        exfalso. apply Hd1. apply in_map_iff. exists (fd, b). auto. }
      split.
      + rewrite X, !filter_app, remove_dull, (destroy_telling fd F), I1. reflexivity.
      + intros x. rewrite I2, (dr_open _ _ _ _ _ D), mget_mdel. cbn [mget]. destruct (Z.eqb_spec x fd) as [->|_]; [|reflexivity]. rewrite Hfd, Et. reflexivity.
    - destruct (IH s G Hd2) as [I1 I2]; [intros x b K; apply Hl; now right|]. split; [exact I1|]. intros x. rewrite I2. cbn [mget].
      destruct (Z.eqb_spec x fd) as [->|_]; [|reflexivity]. rewrite Hfd, Et. reflexivity.
  Qed.
End Proofs.

Lemma has_bit m i : 0 <= i -> has_event m (2 ^ i) = Z.testbit m i.
Proof.
  intros H. unfold has_event. destruct (Z.testbit m i) eqn:E.
  - apply negb_true_iff, Z.eqb_neq. intros K. assert (X : Z.testbit (Z.land m (2 ^ i)) i = true) by (rewrite Z.land_spec, E, Z.pow2_bits_true by exact H; reflexivity).
    rewrite K, Z.bits_0 in X. discriminate.
  - apply negb_false_iff, Z.eqb_eq. apply Z.bits_inj'. intros j Hj. rewrite Z.land_spec, Z.bits_0. destruct (Z.eq_dec i j) as [->|N]; [now rewrite E|].
    rewrite (Z.pow2_bits_false i j N). apply andb_false_r.
Qed.
Lemma broken_bits m : broken m = Z.testbit m 3 || Z.testbit m 2.
Proof. unfold broken. change PError with (2 ^ 3). change PHangup with (2 ^ 2). now rewrite !has_bit by lia. Qed.
Lemma ready_bits m : ready m = Z.testbit m 0 || Z.testbit m 1.
Proof. unfold ready. change PRead with (2 ^ 0). change PWrite with (2 ^ 1). now rewrite !has_bit by lia. Qed.
