(** What was observed of a connection is never forgotten; what a reported event adds to it. *)
From Verif Require Import Base BaseLemmas Huffman Http Conn SpecConn ConnLemmas ConnRule ConnBasic Poller Server SpecServer
  ServerProofs ServerReach SocketProofs ServerHistory.

Section Grows.
  Variable linux : bool.
  Variable listener : Z.
  Variable W : Type.
  Variable app : request -> W -> W * app_answer.
  Variable cs : bool.
  Variable T : tree.
  Variable k0 : kernel.
  Variable w0 : W.
  Hypothesis Hk0 : in_order k0.
  Hypothesis Hl0 : 0 <= listener /\ mget listener (k_open k0) = None.

  Notation server := (server W).
  Notation conns s := (sv_conns W s).
  Notation ker s := (sv_kernel W s).
  Notation good := (good linux listener W app cs T k0 w0).
  Notation reached := (reached linux listener W app cs T k0 w0).
  Notation good_open := (good_open linux listener W app cs T k0 w0 Hl0).
  Notation reap_all := (reap_all linux listener W app cs T k0 w0 Hl0).
  Notation incoming_good := (incoming_good linux listener W app cs T k0 w0 Hl0).
  Notation events_good := (events_good linux listener W app cs T k0 w0 Hl0).
  Notation set_good := (set_good linux listener W app cs T k0 w0 Hl0).
  Notation incoming_cases := (incoming_cases linux W app w0).
  Notation incoming_none := (incoming_none linux W app w0).
  Notation anyone := (anyone W).
  Notation handle evs s := (handle_events linux listener W app cs T evs s).
  Notation batch_good := (batch_good linux listener W app cs T k0 w0 Hl0).
  Notation batch_delivery := (batch_delivery linux listener W app cs T k0 w0 Hl0).

  (** The connection [e] is in [s], perhaps with more observations. *)
  Definition goes_on (e : entry) (s : server) : Prop :=
    exists e' tr, anyone s e' /\ e_socket e' = e_socket e /\ e_trace e' = e_trace e ++ tr.
  Definition grows (s s' : server) : Prop := forall e, anyone s e -> goes_on e s'.
  Lemma grows_same s s' : (forall e, anyone s e -> anyone s' e) -> grows s s'.
  Proof. intros H e He. exists e, []. rewrite app_nil_r. auto. Qed.
  Lemma goes_on_grows e s s' : goes_on e s -> grows s s' -> goes_on e s'.
  Proof.
    intros (e1 & tr & H1 & H2 & H3) G. destruct (G e1 H1) as (e2 & tr2 & K1 & K2 & K3). exists e2, (tr ++ tr2).
    split; [exact K1|]. split; [congruence|]. now rewrite K3, H3, app_assoc.
  Qed.
  Lemma grows_trans s s1 s2 : grows s s1 -> grows s1 s2 -> grows s s2.
  Proof. intros H1 H2 e He. exact (goes_on_grows _ _ _ (H1 e He) H2). Qed.

  Lemma incoming_grows a s s' : good s -> handle_incoming_connection linux W a s = Ret s' -> grows s s'.
  Proof.
    intros H E. apply incoming_cases in E as [->|[(fd & H1 & H2 & H3 & ->)|(fd & H1 & H2 & H3 & ->)]]; apply grows_same; auto.
    intros x [[y K]|K]; [left|now right]. exists y. unfold conn_at in *. cbn [set set_poller set_conns set_kernel sv_conns]. rewrite mget_mput.
    destruct (Z.eqb_spec y fd) as [->|_]; [|exact K]. pose proof (good_open _ _ _ H K). congruence.
  Qed.
  (** The event of a connection: one call, or the connection is dropped. *)
  Lemma events_grow fd m a s s' : good s -> handle_connection_events linux W app cs T fd m a s = Ret s' -> grows s s'.
  Proof.
    intros H E. apply events_cases in E as [->|(e & Hc & [->|(s1 & r & c & tr & w & H1 & Ep & Es')])]; [now apply grows_same| |].
    - apply grows_same. intros x Hx. eapply dropped_people; [exact Hl0|exact Hc|exact (drop_erase_remove linux W fd e s Hc (good_open _ _ _ H Hc))|exact Hx].
    - assert (G1 : good s1) by (destruct H1 as [->| ->]; [exact H|apply set_good; [exact H|right; now exists e]]).
      assert (C1 : conns s1 = conns s /\ sv_gone W s1 = sv_gone W s) by (destruct H1 as [->| ->]; auto).
      destruct C1 as (C1 & C2). clear H1.
      set (e' := Entry (e_socket e) (e_born e) c (Some r) (e_trace e ++ tr)) in *. cbv zeta in Es'.
      set (s2 := set_world W w (set_conns W (mput fd e' (conns s1)) s1)) in *.
      assert (N2 : mget fd (conns s2) = Some e') by (unfold s2; cbn [set_world set_conns sv_conns]; now rewrite mget_mput, Z.eqb_refl).
      assert (G2 : grows s s2).
      { intros x [[y K]|K].
        - unfold conn_at in *. destruct (Z.eqb_spec y fd) as [->|Ny].
          + assert (x = e) by congruence. subst x. exists e', tr. split; [left; now exists fd|]. split; reflexivity.
          + exists x, []. rewrite app_nil_r. split; [|auto]. left. exists y. unfold conn_at, s2. cbn [set_world set_conns sv_conns]. rewrite mget_mput.
            destruct (Z.eqb_spec y fd); [easy|]. now rewrite C1.
        - exists x, []. rewrite app_nil_r. split; [|auto]. right. unfold s2. cbn [set_world set_conns sv_gone]. now rewrite C2. }
      subst s'. destruct r; [exact G2|apply (grows_trans _ _ _ G2), grows_same; auto|].
      assert (O2 : mget fd (k_open (ker s2)) = Some (e_socket e')) by (apply (good_open s1 fd e G1); unfold conn_at; now rewrite C1).
      apply (grows_trans _ _ _ G2), grows_same. intros x Hx. eapply dropped_people; [exact Hl0|exact N2|exact (drop_remove_erase linux W fd e' s2 N2 O2)|exact Hx].
  Qed.
  Lemma batch_grows evs : forall s s', good s -> none_discarded W s -> Forall (around_ok) evs -> handle evs s = Ret s' -> grows s s'.
  Proof.
    induction evs as [|[fd [m a]] evs IH]; intros s s' H Hn Ha E; [injection E as <-; now apply grows_same|]. cbn [handle_events] in E.
    apply Forall_cons_iff in Ha as [Ha Ha']. destruct (fd =? listener).
    - destruct (handle_incoming_connection linux W a s) as [s1| | |] eqn:E1; try discriminate E. cbn [obind] in E.
      exact (grows_trans _ _ _ (incoming_grows _ _ _ H E1) (IH s1 s' (incoming_good _ _ _ H E1) (incoming_none _ _ _ Hn E1) Ha' E)).
    - destruct (handle_connection_events linux W app cs T fd m a s) as [s1| | |] eqn:E1; try discriminate E. cbn [obind] in E.
      destruct (events_good _ _ _ _ _ H Hn Ha E1) as [G N]. exact (grows_trans _ _ _ (events_grow _ _ _ _ _ H E1) (IH s1 s' G N Ha' E)).
  Qed.
  Lemma stops_people l : forall s x, anyone (fold_left (fun s r => stop W r s) l s) x <-> anyone s x.
  Proof. induction l as [|r l IH]; intros s x; [reflexivity|]. cbn [fold_left]. rewrite IH. reflexivity. Qed.
  Lemma batch_people it s x : good s -> none_discarded W s -> anyone (snd (batch linux W it s)) x <-> anyone s x.
  Proof.
    intros G N. destruct (g_limit _ _ _ _ _ _ _ _ s G) as (_ & M & _).
    transitivity (anyone (reap_idle_connections linux W (it_clock it) s) x).
    - unfold batch. now destruct (poller_poll linux _ _ _).
    - apply (reap_people linux listener W app cs T k0 w0 Hl0); [exact G|exact N|exact M|]. intros fd e K. exact (proj2 (mget_entry (conns s) M fd e) K).
  Qed.
  Lemma iterate_grows it s s' : good s -> none_discarded W s -> iteration_ok it -> iterate linux listener W app cs T it s = Ret s' -> grows s s'.
  Proof.
    intros G N Hok E. destruct (batch_spec linux listener W app cs T k0 w0 Hl0 it s G N) as (B1 & B2 & _ & _ & B5). specialize (B5 Hok).
    rewrite iterate_batch in E. destruct (handle (fst (batch linux W it s)) (snd (batch linux W it s))) as [s2| | |] eqn:E2; try discriminate E.
    cbn [obind] in E. injection E as <-.
    apply (grows_trans _ (snd (batch linux W it s))); [apply grows_same; intros e He; now apply (batch_people it s e G N)|].
    apply (grows_trans _ s2); [exact (batch_grows _ _ _ B1 B2 B5 E2)|]. apply grows_same. intros e He. now apply stops_people.
  Qed.

  (** A call that a reported event leads to. *)
  Lemma event_calls fd m a s s' e : good s -> conn_at W s fd e -> handle_connection_events linux W app cs T fd m a s = Ret s' ->
    has_event m PRead = true \/ has_event m PWrite = true -> has_event m PError = false -> has_event m PHangup = false ->
    exists w r c tr w', process W app cs T (ar_scripts a) (e_conn e) w = Ret (r, c, tr, w') /\
      let e' := Entry (e_socket e) (e_born e) c (Some r) (e_trace e ++ tr) in
      anyone s' e' /\ (r <> DiscardConnection -> conn_at W s' fd e').
  Proof.
    intros H Hc E M1 M2 M3. unfold handle_connection_events in E. unfold conn_at in Hc. rewrite Hc, M2, M3 in E. cbn [orb] in E.
    assert (M4 : negb (has_event m PRead) && negb (has_event m PWrite) = false) by (destruct M1 as [->| ->]; [reflexivity|apply andb_false_r]).
    rewrite M4 in E. set (s1 := if has_event m PWrite then _ else _) in E.
    assert (G1 : good s1) by (unfold s1; destruct (has_event m PWrite); [apply set_good; [exact H|right; now exists e]|exact H]).
    assert (C1 : conns s1 = conns s /\ sv_gone W s1 = sv_gone W s) by (unfold s1; destruct (has_event m PWrite); auto). destruct C1 as [C1 C2]. clearbody s1.
    destruct (process W app cs T (ar_scripts a) (e_conn e) (sv_world W s1)) as [[[[r c] tr] w]| | |] eqn:Ep; try discriminate E. cbn [obind] in E.
    exists (sv_world W s1), r, c, tr, w. split; [exact Ep|]. cbv zeta.
    set (e' := Entry (e_socket e) (e_born e) c (Some r) (e_trace e ++ tr)) in *. set (s2 := set_world W w _) in E.
    assert (N2 : mget fd (conns s2) = Some e') by (unfold s2; cbn [set_world set_conns sv_conns]; now rewrite mget_mput, Z.eqb_refl).
    destruct r; cbn [obind] in E.
    - injection E as <-. split; [left; now exists fd|auto].
    - injection E as <-. split; [left; now exists fd|auto].
    - injection E as <-.
      assert (O2 : mget fd (k_open (ker s2)) = Some (e_socket e')) by (apply (good_open s1 fd e G1); unfold conn_at; now rewrite C1).
      split; [|now intros K]. eapply dropped_people; [exact Hl0|exact N2|exact (drop_remove_erase linux W fd e' s2 N2 O2)|]. left. now exists fd.
  Qed.
  Lemma iterate_calls it s s' evs fd e m a : reached true enough_resources [] s -> iteration_ok it -> it_wait it = WaitEvents evs -> NoDup (map fst evs) ->
    (linux = true -> lenZ evs <= p_size (sv_poller W s)) -> iterate linux listener W app cs T it s = Ret s' ->
    conn_at W s fd e -> expired (it_clock it) fd e = false -> In (fd, (m, a)) evs ->
    Z.testbit m 0 = true \/ Z.testbit m 2 = true -> Z.testbit m 3 = false -> Z.testbit m 4 = false ->
    exists w r c tr w', process W app cs T (ar_scripts a) (e_conn e) w = Ret (r, c, tr, w') /\
      let e' := Entry (e_socket e) (e_born e) c (Some r) (e_trace e ++ tr) in
      goes_on e' s' /\ (r <> DiscardConnection -> conn_at W s' fd e').
  Proof.
    intros H Hok Hw Hd Hs E Hc Ex K M1 M2 M3. destruct (reached_good linux listener W app cs T k0 w0 Hk0 Hl0 _ _ _ _ H) as (G & N & _).
    pose proof (reached_reap linux listener W app cs T k0 w0 _ _ (it_clock it) s H) as H1.
    destruct (reap_all (it_clock it) s G N) as (_ & _ & _ & _ & R5 & R6 & _).
    assert (Hs' : linux = true -> lenZ evs <= p_size (sv_poller W (reap_idle_connections linux W (it_clock it) s))) by (intros Q; rewrite R5; auto).
    pose proof (batch_events linux W app w0 it s evs Hw Hd Hs') as Eb.
    destruct (batch_spec linux listener W app cs T k0 w0 Hl0 it s G N) as (B1 & B2 & B3 & _ & B5). specialize (B5 Hok).
    assert (C1 : forall x, mget x (conns (snd (batch linux W it s))) = mget x (conns (reap_idle_connections linux W (it_clock it) s))).
    { intros x. unfold batch. now destruct (poller_poll linux _ _ _). }
    assert (F : fd <> listener) by exact (proj1 (proj2 (proj1 (g_desc _ _ _ _ _ _ _ _ s G) fd e Hc))).
    rewrite iterate_batch in E. destruct (handle (fst (batch linux W it s)) (snd (batch linux W it s))) as [s2| | |] eqn:E2; try discriminate E.
    cbn [obind] in E. injection E as <-. destruct (stops_same W (it_stops it) s2) as [X1 X2].
    assert (C2 : conn_at W (reap_idle_connections linux W (it_clock it) s) fd e) by (unfold conn_at in *; rewrite R6, Hc, Ex; reflexivity).
    assert (C3 : conn_at W (snd (batch linux W it s)) fd e) by (unfold conn_at; rewrite C1; exact C2).
    assert (Wt : watches linux W (reap_idle_connections linux W (it_clock it) s) fd = true).
    { exact (proj2 (reached_watches linux listener W app cs T k0 w0 Hk0 Hl0 _ H1) fd e C2). }
    assert (Kb : In (fd, (from_system linux m, a)) (fst (batch linux W it s))).
    { rewrite Eb. apply in_map_iff. exists (fd, (m, a)). split; [reflexivity|]. apply filter_In. split; [exact K|exact Wt]. }
    destruct (from_bits linux listener k0 Hl0 m) as (F1 & F2 & F3 & F4). rewrite <- F1, <- F2 in M1. rewrite <- F3 in M2. rewrite <- F4 in M3.
    set (b := fst (batch linux W it s)) in *. set (sb := snd (batch linux W it s)) in *. clearbody b sb.
    apply in_split in Kb as (l & l' & ->). apply (handle_app linux listener W app cs T k0 Hl0) in E2 as (s3 & E3 & E2). apply Forall_app in B5 as [B5 B6]. apply Forall_cons_iff in B6 as [B7 B6]. cbn [snd] in B7.
    pose proof (batch_delivery l sb s3 fd (from_system linux m) a l' B1 B2 B5 B3 F e C3 E3) as P.
    destruct (batch_good _ _ _ B1 B2 B5 E3) as [G3 N3]. assert (C4 : conn_at W s3 fd e) by (unfold conn_at; now rewrite (proj1 P)).
    cbn [handle_events] in E2. destruct (Z.eqb_spec fd listener) as [Q|_]; [easy|].
    destruct (handle_connection_events linux W app cs T fd (from_system linux m) a s3) as [s4| | |] eqn:E4; try discriminate E2. cbn [obind] in E2.
    destruct (events_good _ _ _ _ _ G3 N3 B7 E4) as [G4 N4].
    destruct (event_calls fd _ a s3 s4 e G3 C4 E4 M1 M2 M3) as (w & r & c & tr & w' & Ep & A1 & A2). exists w, r, c, tr, w'. split; [exact Ep|]. cbv zeta in A1, A2 |- *.
    split.
    - apply (goes_on_grows _ s2); [|apply grows_same; intros x Hx; now apply stops_people]. apply (batch_grows l' s4 s2 G4 N4 B6 E2). exact A1.
    - intros Hr. specialize (A2 Hr). unfold conn_at. rewrite X1. rewrite map_app in B3. cbn [map fst] in B3.
      pose proof (NoDup_remove_1 _ _ _ B3) as D1. apply NoDup_remove_2 in B3.
      apply (batch_kept linux listener W app cs T k0 w0 Hl0 l' s4 s2 fd _ G4 N4 B6); [|exact F|exact A2|exact E2|intros Q; apply B3, in_or_app; now right].
      clear -D1. induction (map fst l) as [|y ys IH]; [exact D1|]. inversion D1. auto.
  Qed.
  (** An iteration that reports nothing about a connection leaves it alone. *)
  Lemma iterate_passes it s s' fd e : good s -> none_discarded W s -> iteration_ok it -> iterate linux listener W app cs T it s = Ret s' ->
    conn_at W s fd e -> expired (it_clock it) fd e = false -> (forall evs, it_wait it = WaitEvents evs -> ~ In fd (map fst evs)) -> conn_at W s' fd e.
  Proof.
    intros G N Hok E Hc Ex Hn. destruct (reap_all (it_clock it) s G N) as (_ & _ & _ & _ & _ & R6 & _).
    destruct (batch_spec linux listener W app cs T k0 w0 Hl0 it s G N) as (B1 & B2 & B3 & _ & B5). specialize (B5 Hok).
    assert (C1 : forall x, mget x (conns (snd (batch linux W it s))) = mget x (conns (reap_idle_connections linux W (it_clock it) s))).
    { intros x. unfold batch. now destruct (poller_poll linux _ _ _). }
    assert (F : fd <> listener) by exact (proj1 (proj2 (proj1 (g_desc _ _ _ _ _ _ _ _ s G) fd e Hc))).
    assert (C3 : conn_at W (snd (batch linux W it s)) fd e) by (unfold conn_at in *; rewrite C1, R6, Hc, Ex; reflexivity).
    rewrite iterate_batch in E. destruct (handle (fst (batch linux W it s)) (snd (batch linux W it s))) as [s2| | |] eqn:E2; try discriminate E.
    cbn [obind] in E. injection E as <-. unfold conn_at. rewrite (proj1 (stops_same W (it_stops it) s2)).
    apply (batch_kept linux listener W app cs T k0 w0 Hl0 _ _ s2 fd e B1 B2 B5 B3 F C3 E2).
    clear - Hn. intros K. unfold batch, poller_poll in K. destruct (it_wait it) as [|b|evs]; try destruct K. apply (Hn evs eq_refl).
    destruct (wait_spec linux (sv_poller W (reap_idle_connections linux W (it_clock it) s)) (ker (reap_idle_connections linux W (it_clock it) s)) evs) as [_ Q].
    destruct (k_wait linux _ _ evs) as [|x l]; [destruct K|]. cbn [fst] in K. rewrite map_map in K. cbn [fst] in K.
    apply in_map_iff in K as (y & <- & K). apply Q in K as [K _]. now apply in_map.
  Qed.
End Grows.
