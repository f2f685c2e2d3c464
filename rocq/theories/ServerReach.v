(** What holds of a server at every moment. *)
From Verif Require Import Base BaseLemmas Huffman Http Conn SpecConn ConnBasic ConnTerm Poller Server SpecServer ServerProofs.

Section Reach.
  Variable linux : bool.
  Variable listener : Z.
  Variable W : Type.
  Variable app : request -> W -> W * app_answer.
  Variable cs : bool.
  Variable T : tree.
  Variable k0 : kernel.
  Variable w0 : W.
  Hypothesis Hk0 : in_order k0.
  Hypothesis HT : is_tree T.
  Hypothesis Hl0 : 0 <= listener /\ mget listener (k_open k0) = None.

  Notation server := (server W).
  Notation conns s := (sv_conns W s).
  Notation pfds s := (p_fds (sv_poller W s)).
  Notation ker s := (sv_kernel W s).
  Notation good := (good linux listener W app cs T k0 w0).
  Notation reached := (reached linux listener W app cs T k0 w0).


  Notation good_open := (good_open linux listener W app cs T k0 w0 Hl0).
  Notation reap_all := (reap_all linux listener W app cs T k0 w0 Hl0).
  Notation poll_spec := (poll_spec linux listener W app cs T k0 w0).
  Notation incoming_good := (incoming_good linux listener W app cs T k0 w0 Hl0).
  Notation events_good := (events_good linux listener W app cs T k0 w0 Hl0).
  Notation added_good := (added_good linux listener W app cs T k0 w0 Hl0).
  Notation updated_good := (updated_good linux listener W app cs T k0 w0 Hl0).
  Notation set_good := (set_good linux listener W app cs T k0 w0 Hl0).
  Notation incoming_cases := (incoming_cases linux W app w0).
  Notation incoming_none := (incoming_none linux W app w0).

  (** ** The invariant *)
  Lemma poll_around it s evs p : good s -> iteration_ok it ->
    poller_poll linux (it_wait it) (sv_poller W s) (ker s) = (evs, p) ->
    Forall around_ok (match evs with Val evs => evs | Error _ => [] end).
  Proof.
    intros H Hok E. destruct (poll_spec _ _ _ _ H E) as (_ & _ & P). destruct evs as [evs|e]; [|constructor].
    destruct (P evs eq_refl) as (_ & _ & Q). apply Forall_forall. intros [fd [m a]] K. destruct (Q _ _ _ K) as (raw & m' & Er & Kr).
    unfold iteration_ok in Hok. rewrite Er in Hok. rewrite Forall_forall in Hok. exact (Hok _ Kr).
  Qed.
  Lemma reached_good ok A pending s : reached ok A pending s ->
    good s /\ none_discarded W s /\ Forall around_ok pending.
  Proof.
    induction 1 as [stopped|clock s H (IH & IHn & IHa)|it s evs p H (IH & IHn & IHa) Hok HA E|m a pending s s' H (IH & IHn & IHa) E
                   |fd m a pending s s' H (IH & IHn & IHa) Hf E|pending s r H (IH & IHn & IHa)].
    - destruct (first_good linux listener W app cs T k0 w0 Hk0 Hl0 ok stopped) as [G N]. split; [exact G|]. split; [exact N|constructor].
    - destruct (reap_all clock s IH IHn) as (I1 & I2 & _). split; [exact I1|]. split; [exact I2|constructor].
    - destruct (poll_spec _ _ _ _ IH E) as (P1 & P2 & _). split; [now apply size_good|]. split; [exact IHn|]. now apply poll_around with it s p.
    - apply Forall_cons_iff in IHa as [Ha IHa]. split; [exact (incoming_good _ _ _ IH E)|]. split; [|exact IHa].
      exact (incoming_none _ _ _ IHn E).
    - apply Forall_cons_iff in IHa as [Ha IHa]. destruct (events_good _ _ _ _ _ IH IHn Ha E) as [I1 I2]. auto.
    - split; [now apply stop_good|]. auto.
  Qed.

  (** Everything [start] does is made of these steps. *)
  Lemma stops_reached ok A pending l : forall s, reached ok A pending s -> reached ok A pending (fold_left (fun s r => stop W r s) l s).
  Proof. induction l as [|r l IH]; intros s H; [exact H|]. cbn [fold_left]. apply IH. now apply reached_stop. Qed.
  Lemma events_reached ok A rest evs : forall s s', reached ok A (evs ++ rest) s -> handle_events linux listener W app cs T evs s = Ret s' ->
    reached ok A rest s'.
  Proof.
    induction evs as [|[fd [m a]] evs IH]; intros s s' H E; [injection E as <-; exact H|]. cbn [handle_events Datatypes.app] in *.
    destruct (Z.eqb_spec fd listener) as [->|N].
    - destruct (handle_incoming_connection linux W a s) as [s1| | |] eqn:E1; try discriminate E. cbn [obind] in E. apply (IH s1); [|exact E].
      exact (reached_incoming _ _ _ _ _ _ _ _ _ _ _ _ _ _ _ H E1).
    - destruct (handle_connection_events linux W app cs T fd m a s) as [s1| | |] eqn:E1; try discriminate E. cbn [obind] in E. apply (IH s1); [|exact E].
      exact (reached_event _ _ _ _ _ _ _ _ _ _ _ _ _ _ _ _ H N E1).
  Qed.
  Lemma iterate_reached ok A it s s' : reached ok A [] s -> iteration_ok it -> A it ->
    iterate linux listener W app cs T it s = Ret s' -> reached ok A [] s'.
  Proof.
    intros H Hok HA E. unfold iterate in E. apply (reached_reap _ _ _ _ _ _ _ _ _ _ (it_clock it)) in H.
    set (s1 := reap_idle_connections linux W (it_clock it) s) in *.
    destruct (poller_poll linux (it_wait it) (sv_poller W s1) (ker s1)) as [evs p] eqn:Ep.
    apply (reached_poll _ _ _ _ _ _ _ _ _ _ _ _ _ _ H Hok HA) in Ep.
    destruct evs as [evs|e]; cbn [obind] in E.
    - destruct (handle_events linux listener W app cs T evs _) as [s2| | |] eqn:E2; try discriminate. cbn [obind] in E. injection E as <-.
      apply stops_reached. apply events_reached with evs (set_poller W (p, ker s1) s1); [now rewrite app_nil_r|exact E2].
    - injection E as <-. now apply stops_reached.
  Qed.
  Lemma loop_reached ok A its : forall s b s', reached ok A [] s -> Forall iteration_ok its -> Forall A its ->
    loop linux listener W app cs T its s = Ret (b, s') -> reached ok A [] s'.
  Proof.
    induction its as [|it its IH]; intros s b s' H Hok HA E; cbn [loop] in E.
    - destruct (sv_stop W s); injection E as <- <-; exact H.
    - destruct (sv_stop W s); [injection E as <- <-; exact H|]. apply Forall_cons_iff in Hok as [Hok Hok']. apply Forall_cons_iff in HA as [HA HA'].
      destruct (iterate linux listener W app cs T it s) as [s1| | |] eqn:E1; try discriminate. cbn [obind] in E.
      exact (IH s1 b s' (iterate_reached _ _ _ _ _ H Hok HA E1) Hok' HA' E).
  Qed.
  Lemma start_reached made ok stopped its b s A : start linux listener W app cs T made ok stopped k0 w0 its = Ret (b, s) ->
    Forall iteration_ok its -> Forall A its -> reached ok A [] s.
  Proof.
    unfold start. destruct made; [|discriminate]. cbn [negb]. intros E Hok HA. eapply loop_reached; [apply reached_start|exact Hok|exact HA|exact E].
  Qed.

  (** ** C48: with enough resources everything is watched *)
  Definition plenty (a : surroundings) : Prop := Forall (fun ok => ok = true) (ar_ctl a).
  Lemma ctl_plenty n a : plenty a -> ctl_ok n a = true.
  Proof.
    unfold plenty, ctl_ok. intros H. revert n. induction (ar_ctl a) as [|b l IH]; intros [|n]; cbn [nth]; try reflexivity; apply Forall_cons_iff in H as [H H'].
    - exact H.
    - apply IH. exact H'.
  Qed.
  Lemma set_watched fd ev s : good s -> (fd = listener \/ exists e, conn_at W s fd e) -> told linux W fd ev s (set linux W true fd ev s).
  Proof.
    intros H Hf. assert (Ho : mget fd (k_open (ker s)) <> None).
    { destruct Hf as [->|[e Hf]]; [|apply good_open with (1 := H) in Hf; congruence].
      assert (mget listener (k_open (ker s)) = Some (k_objects k0)) by (apply (g_desc _ _ _ _ _ _ _ _ s H); auto). congruence. }
    destruct (set_told linux W true fd ev s Ho) as [(_ & _ & K)|K]; [|discriminate|exact K].
    intros Hl. now apply (g_stale _ _ _ _ _ _ _ _ s H).
  Qed.
  Lemma incoming_watched a s s' : good s -> all_watched listener W s -> plenty a -> handle_incoming_connection linux W a s = Ret s' ->
    all_watched listener W s'.
  Proof.
    intros H [W1 W2] Ha E. pose proof (incoming_good _ _ _ H E) as G'.
    apply incoming_cases in E as [->|[(fd & H1 & H2 & H3 & ->)|(fd & H1 & H2 & H3 & ->)]]; [split; assumption|split; assumption|].
    rewrite ctl_plenty by exact Ha.
    pose proof (added_good fd (ar_now a) s H H1 H2 H3) as G. set (s1 := set_conns W _ _) in *.
    assert (C1 : conn_at W s1 fd (Entry (k_objects (ker s)) (ar_now a) (fresh_conn (ar_now a)) None [])).
    { unfold conn_at, s1. cbn [set_conns sv_conns]. now rewrite mget_mput, Z.eqb_refl. }
    destruct (set_watched fd PRead s1 G (or_intror (ex_intro _ _ C1))) as [T1 _ T2 _ _ _ _ _ _ _].
    assert (Hl : fd <> listener).
    { intros ->. assert (mget listener (k_open (ker s)) = Some (k_objects k0)) by (apply (g_desc _ _ _ _ _ _ _ _ s H); auto). congruence. }
    split; rewrite T2.
    - rewrite mget_mput. destruct (Z.eqb_spec listener fd); [congruence|]. exact W1.
    - intros x e. unfold conn_at. rewrite T1. unfold s1. cbn [set_conns sv_conns set_kernel sv_poller]. rewrite !mget_mput. destruct (x =? fd).
      + intros [= <-]. exists PRead. split; [reflexivity|]. split; [now left|discriminate].
      + intros K. exact (W2 x e K).
  Qed.
  Lemma dropped_watched fd e s s' : fd <> listener -> dropped W fd e s s' -> all_watched listener W s -> all_watched listener W s'.
  Proof.
    intros N D [W1 W2]. split; rewrite (dr_fds _ _ _ _ _ D).
    - rewrite mget_mdel. destruct (Z.eqb_spec listener fd); [congruence|exact W1].
    - intros x e'. unfold conn_at. rewrite (dr_conns _ _ _ _ _ D), !mget_mdel. destruct (x =? fd); [discriminate|apply W2].
  Qed.
  Lemma told_watched fd ev s s' : fd <> listener -> told linux W fd ev s s' -> (ev = PRead \/ ev = Z.lor PRead PWrite) ->
    (ev = PRead -> forall e, conn_at W s fd e -> e_result e <> Some WantWrite) ->
    (mget listener (pfds s) = Some PRead /\
     forall x e, conn_at W s x e -> x <> fd -> exists v, mget x (pfds s) = Some v /\
      (v = PRead \/ v = Z.lor PRead PWrite) /\ (e_result e = Some WantWrite -> v = Z.lor PRead PWrite)) ->
    all_watched listener W s'.
  Proof.
    intros N D Hev Hr [W1 W2]. split; rewrite (to_fds _ _ _ _ _ _ D).
    - rewrite mget_mput. destruct (Z.eqb_spec listener fd); [congruence|exact W1].
    - intros x e'. unfold conn_at. rewrite (to_conns _ _ _ _ _ _ D), mget_mput. destruct (Z.eqb_spec x fd) as [->|N']; [|intros K; exact (W2 x e' K N')].
      intros K. exists ev. split; [reflexivity|]. split; [exact Hev|]. intros Er. destruct Hev as [->|Hev]; [|exact Hev]. now apply Hr in K.
  Qed.
  Lemma events_watched fd m a s s' : fd <> listener -> good s -> none_discarded W s -> scripts_ok (ar_scripts a) -> all_watched listener W s -> plenty a ->
    handle_connection_events linux W app cs T fd m a s = Ret s' -> all_watched listener W s'.
  Proof.
    intros N H Hn Hs HW Ha E. pose proof HW as [W1 W2]. unfold handle_connection_events in E. destruct (mget fd (conns s)) as [e|] eqn:Ec; [|injection E as <-; exact HW].
    destruct (has_event m PError || has_event m PHangup).
    { injection E as <-. exact (dropped_watched _ _ _ _ N (drop_erase_remove linux W fd e s Ec (good_open _ _ _ H Ec)) HW). }
    destruct (negb (has_event m PRead) && negb (has_event m PWrite)); [injection E as <-; exact HW|].
    rewrite !ctl_plenty in E by exact Ha.
    set (s1 := if has_event m PWrite then _ else _) in *.
    assert (S1 : good s1 /\ conns s1 = conns s /\ mget listener (pfds s1) = Some PRead /\
       (forall x e', conn_at W s x e' -> x <> fd -> exists v, mget x (pfds s1) = Some v /\
         (v = PRead \/ v = Z.lor PRead PWrite) /\ (e_result e' = Some WantWrite -> v = Z.lor PRead PWrite)) /\
       exists v, mget fd (pfds s1) = Some v /\ (v = PRead \/ v = Z.lor PRead PWrite)).
    { unfold s1. destruct (has_event m PWrite).
      - pose proof (set_watched fd PRead s H (or_intror (ex_intro _ _ Ec))) as D. split; [apply set_good; [exact H|right; now exists e]|]. split; [reflexivity|].
        rewrite (to_fds _ _ _ _ _ _ D). split; [|split].
        + rewrite mget_mput. destruct (Z.eqb_spec listener fd); [congruence|exact W1].
        + intros x e' K N'. rewrite mget_mput. destruct (Z.eqb_spec x fd); [congruence|]. exact (W2 x e' K).
        + exists PRead. rewrite mget_mput, Z.eqb_refl. auto.
      - split; [exact H|]. split; [reflexivity|]. split; [exact W1|]. split; [intros x e' K _; exact (W2 x e' K)|].
        destruct (W2 fd e Ec) as (v & V1 & V2 & _). eauto. }
    destruct S1 as (G1 & C1 & X1 & X2 & X3). clearbody s1.
    destruct (process W app cs T (ar_scripts a) (e_conn e) (sv_world W s1)) as [[[[r c] tr] w]| | |] eqn:Ep; try discriminate E. cbn [obind] in E.
    set (e' := Entry (e_socket e) (e_born e) c (Some r) (e_trace e ++ tr)) in *.
    set (s2 := set_world W w (set_conns W (mput fd e' (conns s1)) s1)) in *.
    assert (G2 : good s2).
    { eapply updated_good; [exact G1|unfold conn_at; rewrite C1; exact Ec|reflexivity|]. unfold own_life, e'. cbn [e_born e_result e_conn e_trace].
      eapply session_process; [|exact (Hn fd e Ec)|exact Hs|exact I|exact Ep].
      apply (proj1 (g_lives _ _ _ _ _ _ _ _ _ G1) fd e). unfold conn_at. now rewrite C1. }
    assert (C2 : forall x e2, conn_at W s2 x e2 -> x <> fd -> conn_at W s x e2).
    { intros x e2. unfold conn_at, s2. cbn [set_world set_conns sv_conns]. rewrite mget_mput, C1. destruct (Z.eqb_spec x fd); [easy|auto]. }
    assert (Ec2 : conn_at W s2 fd e') by (unfold conn_at, s2; cbn [set_world set_conns sv_conns]; now rewrite mget_mput, Z.eqb_refl).
    destruct r; injection E as <-.
    - split; [exact X1|]. intros x e2 K. destruct (Z.eq_dec x fd) as [->|N'].
      + unfold conn_at in K, Ec2. rewrite Ec2 in K. injection K as <-. destruct X3 as (v & V1 & V2). exists v. split; [exact V1|]. split; [exact V2|discriminate].
      + exact (X2 x e2 (C2 x e2 K N') N').
    - apply told_watched with (1 := N) (2 := set_watched fd (Z.lor PRead PWrite) s2 G2 (or_intror (ex_intro _ _ Ec2))); [now right|discriminate|].
      split; [exact X1|]. intros x e2 K N'. exact (X2 x e2 (C2 x e2 K N') N').
    - pose proof (drop_remove_erase linux W fd e' s2 Ec2 (good_open _ _ _ G2 Ec2)) as D. split; rewrite (dr_fds _ _ _ _ _ D).
      + rewrite mget_mdel. destruct (Z.eqb_spec listener fd); [congruence|exact X1].
      + intros x e2. unfold conn_at. rewrite (dr_conns _ _ _ _ _ D), !mget_mdel. destruct (Z.eqb_spec x fd); [discriminate|]. intros K. exact (X2 x e2 (C2 x e2 K n) n).
  Qed.
  Lemma reached_watched pending s : reached true enough_resources pending s ->
    all_watched listener W s /\ Forall (fun x => plenty (snd (snd x))) pending.
  Proof.
    induction 1 as [stopped|clock s H (IH & IHa)|it s evs p H (IH & IHa) Hok HA E|m a pending s s' H (IH & IHa) E
                   |fd m a pending s s' H (IH & IHa) Hf E|pending s r H (IH & IHa)].
    - split; [|constructor]. split; [|intros fd e; discriminate].
      pose proof (first_good linux listener W app cs T k0 w0 Hk0 Hl0 true stopped) as [G _]. unfold set, set_poller, poller_set.
      destruct Hk0 as (_ & _ & K3 & _). destruct linux; cbn [sv_poller new_poller p_fds sv_kernel fst snd]; [|cbn [mput mdel filter p_fds mget]; now rewrite Z.eqb_refl].
      unfold epoll_ctl. cbn [mhas mget k_new k_open k_watch]. rewrite K3. unfold mhas. rewrite mget_mput, Z.eqb_refl. cbn [negb fst p_fds mget mput mdel filter].
      now rewrite Z.eqb_refl.
    - split; [|constructor]. destruct (reached_good _ _ _ _ H) as (G & Hn & _). destruct (reap_all clock s G Hn) as (_ & _ & _ & _ & _ & I6 & I7).
      destruct IH as [W1 W2]. split.
      + rewrite I7. destruct (mget listener (conns s)) as [e|] eqn:El; [|exact W1]. exfalso. now apply (g_desc _ _ _ _ _ _ _ _ _ G) in El.
      + intros fd e. unfold conn_at. rewrite I6, I7. destruct (mget fd (conns s)) as [e'|] eqn:Ee; [|discriminate]. destruct (expired clock fd e'); [discriminate|].
        intros [= <-]. exact (W2 fd e' Ee).
    - destruct (reached_good _ _ _ _ H) as (G & Hn & _). destruct (poll_spec _ _ _ _ G E) as (P1 & _ & P3). split.
      + destruct IH as [W1 W2]. split; cbn [set_poller sv_poller fst]; rewrite P1; assumption.
      + destruct evs as [evs|e]; [|constructor]. destruct (P3 evs eq_refl) as (_ & _ & Q). apply Forall_forall. intros [fd [m a]] K.
        destruct (Q _ _ _ K) as (raw & m' & Er & Kr). unfold enough_resources in HA. rewrite Er in HA. rewrite Forall_forall in HA. exact (HA _ Kr).
    - apply Forall_cons_iff in IHa as [Ha IHa]. split; [|exact IHa]. destruct (reached_good _ _ _ _ H) as (G & Hn & _). exact (incoming_watched a s s' G IH Ha E).
    - apply Forall_cons_iff in IHa as [Ha IHa]. split; [|exact IHa]. destruct (reached_good _ _ _ _ H) as (G & Hn & Hr). apply Forall_cons_iff in Hr as [Hr _].
      exact (events_watched fd m a s s' Hf G Hn Hr IH Ha E).
    - auto.
  Qed.

  (** ** C50 *)
  (** The part of the server that belongs to the descriptor [x]. *)
  Definition part_same (s s' : server) (x : Z) : Prop :=
    mget x (conns s') = mget x (conns s) /\ mget x (pfds s') = mget x (pfds s) /\
    mget x (k_open (ker s')) = mget x (k_open (ker s)) /\ mget x (k_watch (ker s')) = mget x (k_watch (ker s)).
  Lemma part_trans s1 s2 s3 x : part_same s1 s2 x -> part_same s2 s3 x -> part_same s1 s3 x.
  Proof. unfold part_same. intuition congruence. Qed.
  Lemma set_part ok fd ev s x : x <> fd -> part_same s (set linux W ok fd ev s) x.
  Proof.
    intros N. unfold set, set_poller, poller_set, part_same. destruct s as [cn st [pf ps] [ko kw kn kc] w gone]. cbn [sv_conns sv_poller sv_kernel p_fds k_open k_watch].
    split; [reflexivity|]. destruct linux.
    - unfold epoll_ctl. cbn [k_open k_watch k_objects k_closed]. apply Z.eqb_neq in N.
      destruct (mhas fd ko), (mhas fd pf), (mhas fd kw), ok; cbn [negb fst snd p_fds k_open k_watch]; rewrite ?mget_mput, ?N; auto.
    - cbn [fst snd p_fds k_open k_watch]. apply Z.eqb_neq in N. rewrite mget_mput, N. auto.
  Qed.
  Lemma dropped_part fd e s s' x : x <> fd -> dropped W fd e s s' -> part_same s s' x.
  Proof.
    intros N D. unfold part_same. rewrite (dr_conns _ _ _ _ _ D), (dr_fds _ _ _ _ _ D), (dr_open _ _ _ _ _ D), (dr_watch _ _ _ _ _ D x N), !mget_mdel.
    apply Z.eqb_neq in N. rewrite N. auto.
  Qed.
  Lemma put_part fd e w s x : x <> fd -> part_same s (set_world W w (set_conns W (mput fd e (conns s)) s)) x.
  Proof. intros N. unfold part_same. cbn [set_world set_conns sv_conns sv_poller sv_kernel]. rewrite mget_mput. apply Z.eqb_neq in N. rewrite N. auto. Qed.
  Lemma part_refl s x : part_same s s x.
  Proof. unfold part_same. auto. Qed.
  Lemma events_part fd m a s s' x : good s -> x <> fd -> handle_connection_events linux W app cs T fd m a s = Ret s' -> part_same s s' x.
  Proof.
    intros H N E. apply events_cases in E as [->|(e & Hc & [->|(s1 & r & c & tr & w & H1 & Ep & ->)])]; [apply part_refl| |].
    - exact (dropped_part _ _ _ _ _ N (drop_erase_remove linux W fd e s Hc (good_open _ _ _ H Hc))).
    - assert (S1 : part_same s s1 x) by (destruct H1 as [->| ->]; [apply part_refl|now apply set_part]).
      assert (C1 : conns s1 = conns s) by (destruct H1 as [->| ->]; reflexivity).
      assert (O1 : mget fd (k_open (ker s1)) = Some (e_socket e)).
      { pose proof (good_open _ _ _ H Hc) as O. destruct H1 as [->| ->]; [exact O|].
        unfold set, set_poller, poller_set. cbn [sv_kernel]. destruct linux; [|exact O]. unfold epoll_ctl.
        destruct (mhas fd (k_open (ker s))), (mhas fd (pfds s)), (mhas fd (k_watch (ker s))), (ctl_ok 0 a); cbn [negb snd k_open]; exact O. }
      cbv zeta. set (e' := Entry (e_socket e) (e_born e) c (Some r) (e_trace e ++ tr)). set (s2 := set_world _ _ _).
      pose proof (part_trans _ _ _ _ S1 (put_part fd e' w s1 x N)) as S2. fold s2 in S2. destruct r; [exact S2|exact (part_trans _ _ _ _ S2 (set_part _ _ _ _ _ N))|].
      refine (part_trans _ _ _ _ S2 (dropped_part fd e' _ _ _ N (drop_remove_erase linux W fd e' s2 _ _))).
      + unfold s2. cbn [set_world set_conns sv_conns]. now rewrite mget_mput, Z.eqb_refl.
      + exact O1.
  Qed.
  Lemma incoming_part a s s' x : good s -> handle_incoming_connection linux W a s = Ret s' -> mget x (k_open (ker s)) <> None -> part_same s s' x.
  Proof.
    intros H E Ho. apply incoming_cases in E as [->|[(fd & H1 & H2 & H3 & ->)|(fd & H1 & H2 & H3 & ->)]]; [apply part_refl| |].
    - assert (N : x =? fd = false) by (apply Z.eqb_neq; congruence). unfold part_same. cbn [set_kernel sv_conns sv_poller sv_kernel]. unfold k_close. cbn [k_new k_open].
      rewrite mget_mput, Z.eqb_refl. cbn [k_open k_watch k_new]. rewrite !mget_mdel, mget_mput, N. auto.
    - assert (N : x <> fd) by congruence. refine (part_trans _ _ _ _ _ (set_part _ _ _ _ _ N)). unfold part_same.
      cbn [set_conns set_kernel sv_conns sv_poller sv_kernel k_new k_open k_watch]. rewrite !mget_mput. apply Z.eqb_neq in N. rewrite N. auto.
  Qed.
  (** Events are delivered to the connections they were reported for. *)
  Lemma batch_delivery done : forall s s2 fd m a rest, good s -> none_discarded W s -> Forall around_ok done ->
    NoDup (map fst (done ++ (fd, (m, a)) :: rest)) -> fd <> listener -> forall e, conn_at W s fd e ->
    handle_events linux listener W app cs T done s = Ret s2 -> part_same s s2 fd.
  Proof.
    induction done as [|[x [m' a']] done IH]; intros s s2 fd m a rest H Hn Ha Hd N e Hc E; [injection E as <-; apply part_refl|].
    cbn [handle_events] in E. apply Forall_cons_iff in Ha as [Ha Ha']. cbn [Datatypes.app map fst] in Hd. inversion Hd as [|y l Hd1 Hd2]; subst y l.
    assert (Nx : fd <> x).
    { intros ->. apply Hd1. rewrite map_app. apply in_or_app. right. now left. }
    destruct (Z.eqb_spec x listener) as [->|Nl].
    - destruct (handle_incoming_connection linux W a' s) as [s1| | |] eqn:E1; try discriminate E. cbn [obind] in E.
      assert (P : part_same s s1 fd) by (apply (incoming_part a' s s1 fd H E1); rewrite (good_open _ _ _ H Hc); discriminate).
      apply (part_trans s s1 s2 fd P). eapply (IH s1 s2 fd m a rest); try eassumption.
      + exact (incoming_good _ _ _ H E1).
      + exact (incoming_none _ _ _ Hn E1).
      + unfold conn_at. rewrite (proj1 P). exact Hc.
    - destruct (handle_connection_events linux W app cs T x m' a' s) as [s1| | |] eqn:E1; try discriminate E. cbn [obind] in E.
      pose proof (events_part x m' a' s s1 fd H Nx E1) as P. destruct (events_good _ _ _ _ _ H Hn Ha E1) as [G1 N1].
      apply (part_trans s s1 s2 fd P). eapply (IH s1 s2 fd m a rest); try eassumption. unfold conn_at. rewrite (proj1 P). exact Hc.
  Qed.

  (** ** C51 *)
  Lemma fold_stops l : forall s, sv_stop W (fold_left (fun s r => stop W r s) l s) = last (map Some l) (sv_stop W s).
  Proof.
    induction l as [|r l IH]; intros s; [reflexivity|]. cbn [fold_left map]. rewrite IH. cbn [stop sv_stop]. destruct l as [|r' l]; [reflexivity|].
    cbn [map]. generalize (Some r'). clear. induction (map Some l) as [|y l' IHl]; intros z; [reflexivity|]. cbn [last]. apply IHl.
  Qed.
  Lemma reap_stop clock l : forall s, sv_stop W (reap linux W clock l s) = sv_stop W s.
  Proof.
    induction l as [|[fd e] l IH]; intros s; [reflexivity|]. cbn [reap]. rewrite IH. destruct (has_timed_out _ _); [|reflexivity].
    unfold erase. destruct (mget fd _); reflexivity.
  Qed.
  Lemma incoming_stop a s s' : handle_incoming_connection linux W a s = Ret s' -> sv_stop W s' = sv_stop W s.
  Proof. intros E. apply incoming_cases in E as [->|[(fd & _ & _ & _ & ->)|(fd & _ & _ & _ & ->)]]; reflexivity. Qed.
  Lemma events_stop fd m a s s' : handle_connection_events linux W app cs T fd m a s = Ret s' -> sv_stop W s' = sv_stop W s.
  Proof.
    intros E. apply events_cases in E as [->|(e & Hc & [->|(s1 & r & c & tr & w & H1 & Ep & ->)])]; [reflexivity| |].
    - unfold remove, erase. destruct (mget fd (conns s)); reflexivity.
    - assert (K : sv_stop W s1 = sv_stop W s) by (destruct H1 as [->| ->]; reflexivity). rewrite <- K. cbv zeta. destruct r; [reflexivity|reflexivity|].
      unfold erase. destruct (mget fd _); reflexivity.
  Qed.
  Lemma handle_stop evs : forall s s', handle_events linux listener W app cs T evs s = Ret s' -> sv_stop W s' = sv_stop W s.
  Proof.
    induction evs as [|[fd [m a]] evs IH]; intros s s' E; [now injection E as <-|]. cbn [handle_events] in E.
    destruct (if fd =? listener then _ else _) as [s1| | |] eqn:E1; try discriminate E. cbn [obind] in E. rewrite (IH _ _ E).
    destruct (fd =? listener); [exact (incoming_stop _ _ _ E1)|exact (events_stop _ _ _ _ _ E1)].
  Qed.
  Lemma iterate_stop it s s' : iterate linux listener W app cs T it s = Ret s' -> sv_stop W s' = last (map Some (it_stops it)) (sv_stop W s).
  Proof.
    rewrite iterate_batch. intros E. destruct (handle_events _ _ _ _ _ _ _ _) as [s1| | |] eqn:E1; try discriminate. cbn [obind] in E. injection E as <-.
    rewrite fold_stops. f_equal. rewrite (handle_stop _ _ _ E1). unfold batch. destruct (poller_poll linux _ _ _) as [ev p]. cbn [snd set_poller sv_stop].
    apply reap_stop.
  Qed.
  Lemma loop_stopped its s r : sv_stop W s = Some r -> loop linux listener W app cs T its s = Ret (true, s).
  Proof. intros E. destruct its; cbn [loop]; now rewrite E. Qed.
  Lemma last_some {A} (l : list A) d x : l <> [] -> last l d = last l x.
  Proof. induction l as [|a [|b l] IH]; intros H; [easy|reflexivity|]. apply IH. discriminate. Qed.
  Lemma loop_stops its1 it its2 : forall s b s', Forall (fun it => it_stops it = []) its1 -> it_stops it <> [] -> sv_stop W s = None ->
    loop linux listener W app cs T (its1 ++ [it]) s = Ret (b, s') ->
    b = true /\ sv_stop W s' = Some (last (it_stops it) StopOther) /\
    loop linux listener W app cs T (its1 ++ it :: its2) s = Ret (true, s').
  Proof.
    induction its1 as [|i its1 IH]; intros s b s' H1 Hs Hn E; cbn [Datatypes.app loop] in E |- *; rewrite Hn in E |- *.
    - destruct (iterate linux listener W app cs T it s) as [s1| | |] eqn:E1; try discriminate E. cbn [obind] in E |- *.
      assert (K : sv_stop W s1 = Some (last (it_stops it) StopOther)).
      { rewrite (iterate_stop _ _ _ E1). generalize (sv_stop W s). revert Hs. clear. induction (it_stops it) as [|a [|b l] IH]; intros H d; [easy|reflexivity|].
        change (last (map Some (b :: l)) d = Some (last (b :: l) StopOther)). now apply IH. }
      cbn [loop] in E. rewrite K in E. injection E as <- <-. split; [reflexivity|]. split; [exact K|]. now apply loop_stopped with (last (it_stops it) StopOther).
    - apply Forall_cons_iff in H1 as [Hi H1]. destruct (iterate linux listener W app cs T i s) as [s1| | |] eqn:E1; try discriminate E. cbn [obind] in E |- *.
      apply (IH s1 b s' H1 Hs); [|exact E]. rewrite (iterate_stop _ _ _ E1), Hi. exact Hn.
  Qed.
  (** It goes on otherwise. *)
  Lemma loop_goes_on its : forall s b s', Forall (fun it => it_stops it = []) its -> sv_stop W s = None ->
    loop linux listener W app cs T its s = Ret (b, s') -> b = false /\ sv_stop W s' = None.
  Proof.
    induction its as [|it its IH]; intros s b s' H Hn E; cbn [loop] in E; rewrite Hn in E; [injection E as <- <-; auto|].
    apply Forall_cons_iff in H as [Hi H]. destruct (iterate linux listener W app cs T it s) as [s1| | |] eqn:E1; try discriminate E. cbn [obind] in E.
    apply (IH s1 b s' H); [|exact E]. now rewrite (iterate_stop _ _ _ E1), Hi.
  Qed.

  (** ** C53 *)
  (** Accept does not fail, new sockets can be made non-blocking and get a transport. *)
  Definition accepts (a : surroundings) : Prop :=
    ar_transport a = true /\ match ar_accept a with AcceptFd _ nb => nb = true | AcceptAgain => True | AcceptFails => False end.
  Lemma incoming_returns a s : accepts a -> exists s', handle_incoming_connection linux W a s = Ret s'.
  Proof.
    intros [Ht Ha]. assert (K : exists x, try_accept a (ker s) = Ret x).
    { unfold try_accept. destruct (ar_accept a) as [fd nb| |]; [|eauto|easy]. rewrite Ha. destruct (_ || _); eauto. }
    destruct K as ([fd k] & K). unfold handle_incoming_connection, establish_conn. rewrite K. cbn [obind]. destruct (negb _); [|destruct fd; eauto].
    destruct fd; [|eauto]. rewrite Ht. cbn [negb]. eauto.
  Qed.
  Lemma incoming_fails a s : ar_accept a = AcceptFails -> handle_incoming_connection linux W a s = Throw.
  Proof. intros E. unfold handle_incoming_connection, establish_conn, try_accept. rewrite E. now destruct (negb _). Qed.
  Lemma incoming_not_set_up a s fd nb : ar_accept a = AcceptFd fd nb -> 0 <= fd -> mget fd (k_open (ker s)) = None ->
    nb = false \/ ar_transport a = false /\ lenZ (conns s) < 128 -> handle_incoming_connection linux W a s = Throw.
  Proof.
    intros E Hf Ho H. unfold handle_incoming_connection, establish_conn, try_accept, MAX_CONNECTIONS. rewrite E. unfold mhas. rewrite Ho.
    destruct (Z.ltb_spec fd 0); [lia|]. cbn [orb]. destruct nb.
    - destruct H as [H|[H1 H2]]; [discriminate|]. rewrite Z.geb_leb. destruct (Z.leb_spec 128 (lenZ (conns s))); [lia|]. cbn [negb obind]. now rewrite H1.
    - now destruct (negb _).
  Qed.
  (** Reaping opens and adds nothing. *)
  Lemma reap_less clock l : forall s, (forall fd, mget fd (k_open (ker s)) = None -> mget fd (k_open (ker (reap linux W clock l s))) = None) /\
    lenZ (conns (reap linux W clock l s)) <= lenZ (conns s).
  Proof.
    induction l as [|[fd e] l IH]; intros s; [split; [auto|cbn; lia]|]. cbn [reap]. destruct (has_timed_out (clock fd) (e_conn e)); [|apply IH].
    destruct (IH (erase W fd (remove linux W fd s))) as [K1 K2]. split.
    - intros x Hx. apply K1. unfold erase. assert (Hr : k_open (ker (remove linux W fd s)) = k_open (ker s)).
      { unfold remove, poller_remove. destruct linux; cbn [set_poller sv_kernel fst snd]; [|reflexivity]. unfold epoll_ctl. destruct (negb (mhas fd (k_open (ker s)))); [reflexivity|]. destruct (mhas fd (k_watch (ker s))); reflexivity. }
      destruct (mget fd (sv_conns W (remove linux W fd s))); [|rewrite Hr; exact Hx]. cbn [sv_kernel]. unfold k_close. rewrite Hr.
      destruct (mget fd (k_open (ker s))); cbn [k_open]; [rewrite mget_mdel; destruct (x =? fd)|rewrite ?Hr]; auto.
    - etransitivity; [exact K2|]. unfold erase. destruct (mget fd (sv_conns W (remove linux W fd s))); cbn [sv_conns remove set_poller]; [|lia].
      unfold lenZ, mdel. induction (conns s) as [|y m IHm]; cbn [filter length]; [lia|]. destruct (negb (fd =? fst y)); cbn [length]; lia.
  Qed.
  Lemma events_return fd m a s : good s -> scripts_ok (ar_scripts a) ->
    (exists s', handle_connection_events linux W app cs T fd m a s = Ret s') \/ handle_connection_events linux W app cs T fd m a s = Undef.
  Proof.
    intros H Hs. unfold handle_connection_events. destruct (mget fd (conns s)) as [e|] eqn:Ec; [|eauto]. destruct (_ || _); [eauto|]. destruct (_ && _); [eauto|].
    set (s1 := if has_event m PWrite then _ else _). clearbody s1.
    pose proof (proj1 (g_lives _ _ _ _ _ _ _ _ _ H) fd e Ec) as L. unfold own_life in L.
    assert (L' : session W app cs T (fun _ _ => True) (e_born e) w0 (fun _ => True) (e_result e) (e_conn e) (e_trace e) (sv_world W s1)).
    { eapply session_others; [exact L|exact I]. }
    destruct (process_returns W app cs T HT _ _ _ _ _ _ _ _ _ L' Hs) as [([[[r c] tr] w] & E)|E]; rewrite E; cbn [obind]; [|auto].
    left. destruct r; eauto.
  Qed.
  Lemma batch_returns evs : forall s, good s -> none_discarded W s -> Forall around_ok evs -> Forall (fun x => fst x = listener -> accepts (snd (snd x))) evs ->
    (exists s', handle_events linux listener W app cs T evs s = Ret s') \/ handle_events linux listener W app cs T evs s = Undef.
  Proof.
    induction evs as [|[fd [m a]] evs IH]; intros s H Hn Ho Ha; [left; eexists; reflexivity|]. apply Forall_cons_iff in Ho as [Ho Ho']. apply Forall_cons_iff in Ha as [Ha Ha'].
    cbn [handle_events]. destruct (Z.eqb_spec fd listener) as [->|N].
    - destruct (incoming_returns a s (Ha eq_refl)) as (s1 & E). rewrite E. cbn [obind].
      apply IH; auto; [exact (incoming_good _ _ _ H E)|exact (incoming_none _ _ _ Hn E)].
    - destruct (events_return fd m a s H Ho) as [(s1 & E)|E]; rewrite E; cbn [obind]; [|auto].
      destruct (events_good _ _ _ _ _ H Hn Ho E) as [G N1]. apply IH; auto.
  Qed.
End Reach.
