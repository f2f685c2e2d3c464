(** What happens to each connection in a batch, and to all of them together. *)
From Verif Require Import Base BaseLemmas Huffman DynTable HpackDec HpackEnc Frames Http Conn SpecConn ConnLemmas ConnRule ConnBasic Poller Server SpecServer
  ServerProofs ServerReach SocketProofs.

(** ** The application during one call *)
Section Asks.
  Variable W : Type.
  Variable app : request -> W -> W * app_answer.
  Variable cs : bool.
  Variable T : tree.

  Lemma handled_app l1 : forall w w1 l2 w2, handled eq app w l1 w1 -> handled eq app w1 l2 w2 -> handled eq app w (l1 ++ l2) w2.
  Proof.
    intros w w1 l2 w2 H1 H2. induction H2 as [|l w' w'' _ IH E|l w' rq w'' r _ IH E|l w' rq w'' _ IH E|l w' rq w'' _ IH E].
    - rewrite app_nil_r. exact H1.
    - subst. exact IH.
    - rewrite app_assoc. eapply handled_answers; eauto.
    - rewrite app_assoc. eapply handled_fails; eauto.
    - rewrite app_assoc. eapply handled_escapes; eauto.
  Qed.
  Lemma requests_none ev : (forall e, In e ev -> match e with EvRequest _ _ => False | _ => True end) -> requests ev = [].
  Proof.
    induction ev as [|e ev IH]; intros H; [reflexivity|]. cbn [requests flat_map]. fold (requests ev). rewrite IH; [|intros x Hx; apply H; now right].
    specialize (H e (or_introl eq_refl)). now destruct e.
  Qed.
  Lemma frame_asks f d e w fe d' e' w' ev : process_frame W app cs T f d e w = Ret (fe, d', e', w', ev) -> handled eq app w (requests ev) w'.
  Proof.
    intros E. apply process_frame_inv in E.
    destruct E as [H|[H|[H|[H|[H|[H|H]]]]]].
    1-6: decompose [and] H; subst; apply handled_none.
    destruct H as (_ & block & _ & [H|[H|H]]).
    - decompose [and] H; subst; apply handled_none.
    - destruct H as (er & H). decompose [and] H; subst; apply handled_none.
    - destruct H as (hdrs & resp & evr & _ & Hp & H).
      assert (R : requests ev = requests evr).
      { destruct H as [(_ & _ & _ & ->)|(rs & _ & [(_ & _ & _ & ->)|(block' & data & _ & _ & _ & ->)])]; try reflexivity.
        rewrite requests_app. apply app_nil_r. }
      rewrite R. clear H R. apply process_request_inv in Hp as [(_ & -> & _ & ->)|(p & m & a & _ & _ & Ea & [(-> & _ & ->)|(r & [->|[-> ->]] & _ & ->)])].
      + apply handled_none.
      + exact (handled_escapes eq app w [] w _ w' (handled_none _ _ _) Ea).
      + exact (handled_answers eq app w [] w _ w' r (handled_none _ _ _) Ea).
      + exact (handled_fails eq app w [] w _ w' (handled_none _ _ _) Ea).
  Qed.
  Lemma read_asks c w v c' ev w' : try_read_frame W app cs T c w = Ret (v, c', ev, w') -> handled eq app w (requests ev) w'.
  Proof.
    unfold try_read_frame. destruct (lenZ (c_rbuf c) <? 9); [intros [= _ _ <- <-]; apply handled_none|].
    destruct (fh_parse _) as [h| | |]; try discriminate. cbn [obind]. destruct (fh_length h >? MAX_FRAME_SIZE); [intros [= _ _ <- <-]; apply handled_none|].
    destruct (lenZ (c_rbuf c) <? 9 + fh_length h); [intros [= _ _ <- <-]; apply handled_none|].
    destruct (process_frame _ _ _ _ _ _ _ _) as [[[[[fe d] e] w1] ev1]| | |] eqn:Ep; try discriminate. cbn [obind]. apply frame_asks in Ep.
    destruct fe; intros [= _ _ <- <-]; exact Ep.
  Qed.
  Lemma dispatch_asks c w v c' ev w' : dispatch W app cs T c w = Ret (v, c', ev, w') -> handled eq app w (requests ev) w'.
  Proof.
    unfold dispatch. destruct (c_state c); try (intros [= _ _ <- <-]; apply handled_none).
    - unfold read_preface. destruct (_ <? _); [intros [= _ _ <- <-]; apply handled_none|]. destruct (bytes_eqb _ _); [|intros [= _ _ <- <-]; apply handled_none].
      destruct (try_read_frame _ _ _ _ _ _) as [[[[v2 c2] ev2] w2]| | |] eqn:E; try discriminate. cbn [obind]. apply read_asks in E. intros [= _ _ <- <-]. exact E.
    - apply read_asks.
    - unfold close. destruct (c_state c); intros [= _ _ <- <-]; apply handled_none.
  Qed.
  Lemma handshake_asks hs c r c' ev hs' : handle_handshake hs c = (r, c', ev, hs') -> requests ev = [].
  Proof. unfold handle_handshake. destruct hs as [|[now [|[]]] hs]; intros [= _ _ <- _]; reflexivity. Qed.
  Lemma flush_asks wr c c' ev wr' : flush_write_buffer wr c = (c', ev, wr') -> requests ev = [].
  Proof. unfold flush_write_buffer. destruct (c_wbuf c); [now intros [= _ <- _]|]. destruct wr as [|[now [n|k|e]] wr]; intros [= _ <- _]; reflexivity. Qed.
  Lemma fill_asks rd : forall c c' ev rd', fill_read_buffer rd c = (c', ev, rd') -> requests ev = [].
  Proof.
    induction rd as [|[now [o|e]] rd IH]; intros c c' ev rd' E; cbn [fill_read_buffer] in E; destruct (_ >=? _); try (injection E as _ <- _; reflexivity).
    destruct (fill_read_buffer rd _) as [[c2 ev2] rd2] eqn:E2. apply IH in E2. injection E as _ <- _. exact E2.
  Qed.
  Lemma loop_asks fuel : forall s c w v c' ev w', internal_process W app cs T fuel s c w = Ret (v, c', ev, w') -> handled eq app w (requests ev) w'.
  Proof.
    induction fuel as [|fuel IH]; intros s c w v c' ev w' E; [discriminate|]. cbn [internal_process] in E.
    destruct (match c_state c with AwaitingHandshake => _ | _ => _ end) as [[[r c0] ev0] hs'] eqn:E0.
    assert (R0 : requests ev0 = []) by (destruct (c_state c); [exact (handshake_asks _ _ _ _ _ _ E0)|..]; injection E0 as _ _ <- _; reflexivity).
    destruct r as [r|]; [injection E as _ _ <- <-; rewrite R0; apply handled_none|].
    destruct (flush_write_buffer _ _) as [[c1 ev1] wr'] eqn:E1. apply flush_asks in E1.
    destruct (c_wbuf c1); [|injection E as _ _ <- <-; rewrite requests_app, R0, E1; apply handled_none].
    destruct (fill_read_buffer _ _) as [[c2 ev2] rd'] eqn:E2. apply fill_asks in E2.
    destruct (dispatch _ _ _ _ _ _) as [[[[v3 c3] ev3] w3]| | |] eqn:E3; try discriminate. cbn [obind] in E. apply dispatch_asks in E3.
    destruct v3; [|injection E as _ _ <- <-; rewrite !requests_app, R0, E1, E2; exact E3..].
    destruct (internal_process _ _ _ _ _ _ _ _) as [[[[v4 c4] ev4] w4]| | |] eqn:E4; try discriminate. cbn [obind] in E. apply IH in E4.
    injection E as _ _ <- <-. rewrite !requests_app, R0, E1, E2. exact (handled_app _ _ _ _ _ E3 E4).
  Qed.
  (** During one call the application is given the requests observed. *)
  Lemma process_asks s c w r c' ev w' : process W app cs T s c w = Ret (r, c', ev, w') -> handled eq app w (requests ev) w'.
  Proof.
    unfold process. destruct (internal_process _ _ _ _ _ _ _ _) as [[[[v c1] ev1] w1]| | |] eqn:E; try discriminate. cbn [obind]. apply loop_asks in E.
    destruct v; [discriminate|intros [= _ _ <- <-]; exact E..].
  Qed.
End Asks.

(** ** All connections together *)
Section All.
  Variable linux : bool.
  Variable listener : Z.
  Variable W : Type.
  Variable app : request -> W -> W * app_answer.
  Variable cs : bool.
  Variable T : tree.
  Variable k0 : kernel.
  Variable w0 : W.
  Hypothesis Hk0 : in_order k0.
  Hypothesis Hl0 : 0 <= listener /\ mget listener (k_open k0) = None.

  Notation server := (server W).
  Notation conns s := (sv_conns W s).
  Notation pfds s := (p_fds (sv_poller W s)).
  Notation ker s := (sv_kernel W s).
  Notation good := (good linux listener W app cs T k0 w0).
  Notation reached := (reached linux listener W app cs T k0 w0).
  Notation chronicle := (chronicle W app w0).
  Notation good_open := (good_open linux listener W app cs T k0 w0 Hl0).
  Notation reap_all := (reap_all linux listener W app cs T k0 w0 Hl0).
  Notation incoming_good := (incoming_good linux listener W app cs T k0 w0 Hl0).
  Notation events_good := (events_good linux listener W app cs T k0 w0 Hl0).
  Notation set_good := (set_good linux listener W app cs T k0 w0 Hl0).
  Notation incoming_cases := (incoming_cases linux W app w0).
  Notation incoming_none := (incoming_none linux W app w0).
  Notation anyone := (anyone W).

  Definition one_each (s : server) : Prop := forall e e', anyone s e -> anyone s e' -> e_socket e = e_socket e' -> e = e'.
  (** The observations are those of calls of [process], one after the other. *)
  Inductive calls : list (nat * event) -> Prop :=
  | calls_none : calls []
  | calls_more : forall n sc c w r c' tr w' h, calls h -> process W app cs T sc c w = Ret (r, c', tr, w') ->
      calls (h ++ map (pair n) tr).
  Definition told_all (s : server) : Prop := one_each s /\ exists h, chronicle s h /\ calls h.

  Lemma same_people s s' : (forall e, anyone s' e <-> anyone s e) -> sv_world W s' = sv_world W s -> told_all s -> told_all s'.
  Proof.
    intros Hp Hw [H1 (h & [H2 H3 H4] & H5)]. split; [intros e e' Ha Hb; apply H1; now apply Hp|]. exists h. split; [|exact H5]. split.
    - intros e He. apply H2. now apply Hp.
    - intros n ev Hi. destruct (H3 n ev Hi) as (e & He & En). exists e. split; [now apply Hp|exact En].
    - rewrite Hw. exact H4.
  Qed.
  Lemma dropped_people fd e s s' : conn_at W s fd e -> dropped W fd e s s' -> forall x, anyone s' x <-> anyone s x.
  Proof.
    intros Hc D x. unfold SpecServer.anyone, conn_at. rewrite (dr_conns _ _ _ _ _ D), (dr_gone _ _ _ _ _ D), in_app_iff. split.
    - intros [[y H]|[H|[<-|[]]]]; [left|now right|left; now exists fd]. exists y. rewrite mget_mdel in H. destruct (y =? fd); [discriminate|exact H].
    - intros [[y H]|H]; [|tauto]. destruct (Z.eqb_spec y fd) as [->|N].
      + right. right. left. unfold conn_at in Hc. congruence.
      + left. exists y. apply Z.eqb_neq in N. now rewrite mget_mdel, N.
  Qed.
  Lemma set_people ok fd ev s x : anyone (set linux W ok fd ev s) x <-> anyone s x.
  Proof. reflexivity. Qed.
  Lemma reap_people clock l : forall s, good s -> none_discarded W s -> NoDup (map fst l) -> (forall fd e, In (fd, e) l -> conn_at W s fd e) ->
    forall x, anyone (reap linux W clock l s) x <-> anyone s x.
  Proof.
    induction l as [|[fd e] l IH]; intros s H Hn Hd Hi x; [reflexivity|]. cbn [reap]. cbn [map fst] in Hd. inversion Hd as [|y l' D1 D2]; subst y l'.
    pose proof (Hi fd e (or_introl eq_refl)) as Hc. destruct (has_timed_out _ _).
    - pose proof (drop_remove_erase linux W fd e s Hc (good_open _ _ _ H Hc)) as D. set (s1 := erase W fd _) in *.
      rewrite IH; [exact (dropped_people fd e s s1 Hc D x)|exact (dropped_good linux listener W app cs T k0 w0 Hl0 _ _ _ _ H Hc D)| |exact D2|].
      + intros z e'. unfold conn_at. rewrite (dr_conns _ _ _ _ _ D), mget_mdel. destruct (z =? fd); [discriminate|]. apply Hn.
      + intros z e' K. unfold conn_at. rewrite (dr_conns _ _ _ _ _ D), mget_mdel. destruct (Z.eqb_spec z fd) as [->|N].
        * exfalso. apply D1. apply in_map_iff. exists (fd, e'). auto.
        * exact (Hi z e' (or_intror K)).
    - apply IH; [exact H|exact Hn|exact D2|]. intros z e' K. exact (Hi z e' (or_intror K)).
  Qed.
  (** The numbers of the sockets there have been are smaller than that of the next. *)
  Lemma people_old s e : good s -> anyone s e -> (e_socket e < k_objects (ker s))%nat.
  Proof.
    intros H He. destruct (g_sock _ _ _ _ _ _ _ _ s H) as (S1 & _ & _ & _ & _ & S6). apply S1. destruct He as [[fd He]|He]; [left; eauto|right].
    rewrite Forall_forall in S6. now apply S6.
  Qed.
  Lemma of_socket_app n h h' : of_socket n (h ++ h') = of_socket n h ++ of_socket n h'.
  Proof. unfold of_socket. now rewrite filter_app, map_app. Qed.
  Lemma of_socket_same n tr : of_socket n (map (pair n) tr) = tr.
  Proof. unfold of_socket. induction tr as [|e tr IH]; [reflexivity|]. cbn [map filter fst]. rewrite Nat.eqb_refl. cbn [map snd]. now rewrite IH. Qed.
  Lemma of_socket_other n m tr : n <> m -> of_socket n (map (pair m) tr) = [].
  Proof.
    intros N. unfold of_socket. induction tr as [|e tr IH]; [reflexivity|]. cbn [map filter fst]. destruct (Nat.eqb_spec m n); [congruence|exact IH].
  Qed.
  Lemma of_socket_none n h : (forall ev, ~ In (n, ev) h) -> of_socket n h = [].
  Proof.
    intros H. unfold of_socket. induction h as [|[m ev] h IH]; [reflexivity|]. cbn [filter fst]. destruct (Nat.eqb_spec m n) as [->|N].
    - exfalso. apply (H ev). now left.
    - apply IH. intros ev' K. apply (H ev'). now right.
  Qed.
  Lemma incoming_told a s s' : good s -> told_all s -> handle_incoming_connection linux W a s = Ret s' -> told_all s'.
  Proof.
    intros H Ht E. apply incoming_cases in E as [->|[(fd & H1 & H2 & H3 & ->)|(fd & H1 & H2 & H3 & ->)]]; [exact Ht|revert Ht; now apply same_people|].
    set (e1 := Entry (k_objects (ker s)) (ar_now a) (fresh_conn (ar_now a)) None []). set (s1 := set linux W _ _ _ _).
    assert (P : forall x, anyone s1 x <-> x = e1 \/ anyone s x).
    { intros x. unfold SpecServer.anyone, conn_at, s1. cbn [set set_poller set_conns set_kernel sv_conns sv_gone].
      assert (K : mget fd (conns s) = None).
      { destruct (mget fd (conns s)) as [e|] eqn:K; [|reflexivity]. apply good_open with (1 := H) in K. congruence. }
      split.
      - intros [[y K']|K']; [|tauto]. rewrite mget_mput in K'. destruct (y =? fd); [injection K' as <-; now left|right; left; eauto].
      - intros [->|[[y K']|K']]; [left; exists fd; now rewrite mget_mput, Z.eqb_refl| |tauto]. left. exists y. rewrite mget_mput.
        destruct (Z.eqb_spec y fd) as [->|_]; [congruence|exact K']. }
    destruct Ht as [T1 (h & [T2 T3 T4] & T5)]. split.
    - intros x y Hx Hy Exy. apply P in Hx, Hy. destruct Hx as [->|Hx], Hy as [->|Hy].
      + reflexivity.
      + apply people_old in Hy; [|exact H]. rewrite <- Exy in Hy. cbn [e1 e_socket] in Hy. lia.
      + apply people_old in Hx; [|exact H]. rewrite Exy in Hx. cbn [e1 e_socket] in Hx. lia.
      + now apply T1.
    - exists h. split; [|exact T5]. split.
      + intros x Hx. apply P in Hx as [->|Hx]; [|now apply T2]. cbn [e1 e_trace e_socket]. symmetry. apply of_socket_none. intros ev K.
        destruct (T3 _ _ K) as (y & Hy & Ey). apply people_old in Hy; [lia|exact H].
      + intros n ev K. destruct (T3 _ _ K) as (y & Hy & Ey). exists y. split; [apply P; now right|exact Ey].
      + exact T4.
  Qed.
  Lemma events_told fd m a s s' : good s -> none_discarded W s -> scripts_ok (ar_scripts a) -> told_all s ->
    handle_connection_events linux W app cs T fd m a s = Ret s' -> told_all s'.
  Proof.
    intros H Hn Hs Ht E. pose proof (proj1 (events_good _ _ _ _ _ H Hn Hs E)) as G'.
    apply events_cases in E as [->|(e & Hc & [->|(s1 & r & c & tr & w & H1 & Ep & Es')])]; [exact Ht| |].
    - pose proof (drop_erase_remove linux W fd e s Hc (good_open _ _ _ H Hc)) as D. revert Ht. apply same_people; [|exact (dr_world _ _ _ _ _ D)].
      exact (dropped_people fd e s _ Hc D).
    - assert (G1 : good s1) by (destruct H1 as [->| ->]; [exact H|apply set_good; [exact H|right; now exists e]]).
      assert (C1 : conns s1 = conns s /\ sv_gone W s1 = sv_gone W s /\ sv_world W s1 = sv_world W s) by (destruct H1 as [->| ->]; auto).
      destruct C1 as (C1 & C2 & C3). rewrite C3 in Ep. clear H1.
      set (e' := Entry (e_socket e) (e_born e) c (Some r) (e_trace e ++ tr)) in *. cbv zeta in Es'.
      set (s2 := set_world W w (set_conns W (mput fd e' (conns s1)) s1)) in *.
      assert (N2 : mget fd (conns s2) = Some e') by (unfold s2; cbn [set_world set_conns sv_conns]; now rewrite mget_mput, Z.eqb_refl).
      destruct Ht as [T1 (h & [T2 T3 T4] & T5)].
      assert (Pe : anyone s e) by (left; now exists fd).
      assert (P : forall x, anyone s2 x <-> x = e' \/ (anyone s x /\ e_socket x <> e_socket e)).
      { intros x. unfold SpecServer.anyone at 1, conn_at, s2. cbn [set_world set_conns sv_conns sv_gone]. rewrite C1, C2. split.
        - intros [[y K]|K].
          + rewrite mget_mput in K. destruct (Z.eqb_spec y fd) as [_|N]; [injection K as <-; now left|right]. split; [left; now exists y|].
            intros Ex. destruct (g_sock _ _ _ _ _ _ _ _ s H) as (_ & _ & S3 & _). exact (N (S3 y x fd e K Hc Ex)).
          + right. split; [now right|]. intros Ex. destruct (g_sock _ _ _ _ _ _ _ _ s H) as (_ & S2 & _ & _ & _ & S6). rewrite Forall_forall in S6.
            apply (S2 fd e Hc). rewrite <- Ex. now apply S6.
        - intros [->|[[[y K]|K] N]]; [left; exists fd; now rewrite mget_mput, Z.eqb_refl| |tauto]. left. exists y. rewrite mget_mput.
          destruct (Z.eqb_spec y fd) as [->|_]; [|exact K]. unfold conn_at in *. congruence. }
      assert (TA : told_all s2).
      { split.
        - intros x y Hx Hy Exy. apply P in Hx, Hy. destruct Hx as [->|[Hx Nx]], Hy as [->|[Hy Ny]]; [reflexivity| | |now apply T1]; cbn [e' e_socket] in Exy; congruence.
        - exists (h ++ map (pair (e_socket e)) tr). split; [|exact (calls_more _ _ _ _ _ _ _ _ _ T5 Ep)]. split.
          + intros x Hx. apply P in Hx as [->|[Hx Nx]]; rewrite of_socket_app.
            * cbn [e' e_socket e_trace]. rewrite of_socket_same. f_equal. now apply T2.
            * rewrite of_socket_other by exact Nx. rewrite app_nil_r. now apply T2.
          + intros n ev K. apply in_app_or in K as [K|K].
            * destruct (T3 _ _ K) as (y & Hy & Ey). destruct (Nat.eq_dec (e_socket y) (e_socket e)) as [Q|Q].
              -- exists e'. split; [apply P; now left|]. cbn [e' e_socket]. congruence.
              -- exists y. split; [apply P; now right|exact Ey].
            * apply in_map_iff in K as (z & Ez & _). injection Ez as <- _. exists e'. split; [apply P; now left|reflexivity].
          + rewrite map_app, requests_app. eapply handled_app; [exact T4|]. rewrite map_map. cbn [snd]. rewrite map_id.
            exact (process_asks W app cs T _ _ _ _ _ _ _ Ep). }
      subst s'. destruct r; [exact TA|revert TA; now apply same_people|].
      assert (O2 : mget fd (k_open (ker s2)) = Some (e_socket e')) by (apply (good_open s1 fd e G1); unfold conn_at; now rewrite C1).
      pose proof (drop_remove_erase linux W fd e' s2 N2 O2) as D. revert TA. apply same_people; [|exact (dr_world _ _ _ _ _ D)].
      exact (dropped_people fd e' s2 _ N2 D).
  Qed.
  Lemma reached_told ok A pending s : reached ok A pending s -> told_all s.
  Proof.
    induction 1 as [stopped|clock s H IH|it s evs p H IH Hok HA E|m a pending s s' H IH E|fd m a pending s s' H IH Hf E|pending s r H IH];
      [|destruct (reached_good linux listener W app cs T k0 w0 Hk0 Hl0 _ _ _ _ H) as (G & N & P)..].
    - split; [intros e e' [[fd K]|[]]; discriminate K|]. exists []. split; [|exact calls_none]. split; [intros e [[fd K]|[]]; discriminate K|easy|apply handled_none].
    - revert IH. destruct (reap_all clock s G N) as (_ & _ & _ & Rw & _). apply same_people; [|exact Rw].
      destruct (g_limit _ _ _ _ _ _ _ _ s G) as (_ & M & _). apply reap_people; [exact G|exact N|exact M|]. intros fd e K. exact (proj2 (mget_entry (conns s) M fd e) K).
    - revert IH. now apply same_people.
    - exact (incoming_told a s s' G IH E).
    - apply Forall_cons_iff in P as [P _]. exact (events_told fd m a s s' G N P IH E).
    - revert IH. now apply same_people.
  Qed.

  (** ** Every event *)
  Notation handle evs s := (handle_events linux listener W app cs T evs s).
  Notation part_same := (part_same W).
  Notation batch_delivery := (batch_delivery linux listener W app cs T k0 w0 Hl0).
  Notation batch_good := (batch_good linux listener W app cs T k0 w0 Hl0).
  Lemma handle_app l l' : forall s s', handle (l ++ l') s = Ret s' -> exists s1, handle l s = Ret s1 /\ handle l' s1 = Ret s'.
  Proof.
    induction l as [|[fd [m a]] l IH]; intros s s' E; [now exists s|]. cbn [Datatypes.app handle_events] in E |- *.
    set (x := if fd =? listener then _ else _) in *. destruct x as [s1| | |]; try discriminate E. cbn [obind] in E |- *. now apply IH.
  Qed.
  Lemma set_closed ok fd ev s : k_closed (ker (set linux W ok fd ev s)) = k_closed (ker s).
  Proof.
    unfold set, set_poller, poller_set. cbn [sv_kernel]. destruct linux; [|reflexivity]. unfold epoll_ctl.
    destruct (mhas fd (k_open (ker s))), (mhas fd (pfds s)), (mhas fd (k_watch (ker s))), ok; reflexivity.
  Qed.
  Lemma events_closed fd m a s s' : good s -> none_discarded W s -> scripts_ok (ar_scripts a) ->
    handle_connection_events linux W app cs T fd m a s = Ret s' -> incl (k_closed (ker s)) (k_closed (ker s')).
  Proof.
    intros H Hn Hs E. apply events_cases in E as [->|(e & Hc & [->|(s1 & r & c & tr & w & H1 & Ep & ->)])]; [apply incl_refl| |].
    - rewrite (dr_closed _ _ _ _ _ (drop_erase_remove linux W fd e s Hc (good_open _ _ _ H Hc))). apply incl_appl, incl_refl.
    - assert (G1 : good s1) by (destruct H1 as [->| ->]; [exact H|apply set_good; [exact H|right; now exists e]]).
      assert (C1 : conns s1 = conns s) by (destruct H1 as [->| ->]; auto).
      assert (K1 : k_closed (ker s1) = k_closed (ker s)) by (destruct H1 as [->| ->]; [reflexivity|apply set_closed]).
      cbv zeta. rewrite <- K1. destruct r; [apply incl_refl|rewrite set_closed; apply incl_refl|].
      set (e' := Entry _ _ _ _ _). set (s2 := set_world W w _).
      assert (N2 : mget fd (conns s2) = Some e') by (unfold s2; cbn [set_world set_conns sv_conns]; now rewrite mget_mput, Z.eqb_refl).
      assert (O2 : mget fd (k_open (ker s2)) = Some (e_socket e')) by (apply (good_open s1 fd e G1); unfold conn_at; now rewrite C1).
      rewrite (dr_closed _ _ _ _ _ (drop_remove_erase linux W fd e' s2 N2 O2)). apply incl_appl, incl_refl.
  Qed.
  Lemma incoming_closed a s s' : handle_incoming_connection linux W a s = Ret s' -> incl (k_closed (ker s)) (k_closed (ker s')).
  Proof.
    intros E. apply incoming_cases in E as [->|[(fd & H1 & H2 & H3 & ->)|(fd & H1 & H2 & H3 & ->)]]; [apply incl_refl| |].
    - cbn [set_kernel sv_kernel]. unfold k_close. destruct (mget fd (k_open (k_new fd (ker s)))); cbn [k_closed k_new]; apply incl_appl, incl_refl.
    - rewrite set_closed. apply incl_refl.
  Qed.
  Lemma batch_closed evs : forall s s', good s -> none_discarded W s -> Forall around_ok evs -> handle evs s = Ret s' ->
    incl (k_closed (ker s)) (k_closed (ker s')).
  Proof.
    induction evs as [|[fd [m a]] evs IH]; intros s s' H Hn Ha E; [injection E as <-; apply incl_refl|]. cbn [handle_events] in E.
    apply Forall_cons_iff in Ha as [Ha Ha']. destruct (fd =? listener).
    - destruct (handle_incoming_connection linux W a s) as [s1| | |] eqn:E1; try discriminate E. cbn [obind] in E.
      apply (incl_tran (incoming_closed _ _ _ E1)). exact (IH s1 s' (incoming_good _ _ _ H E1) (incoming_none _ _ _ Hn E1) Ha' E).
    - destruct (handle_connection_events linux W app cs T fd m a s) as [s1| | |] eqn:E1; try discriminate E. cbn [obind] in E.
      destruct (events_good _ _ _ _ _ H Hn Ha E1) as [G N]. apply (incl_tran (events_closed _ _ _ _ _ H Hn Ha E1)). exact (IH s1 s' G N Ha' E).
  Qed.
  (** What [served_event] says, with the poller's masks. *)
  Inductive served (e : entry) (m : Z) (a : surroundings) : option entry -> Prop :=
  | s_broken : has_event m PError = true \/ has_event m PHangup = true -> served e m a None
  | s_nothing : has_event m PRead = false -> has_event m PWrite = false -> has_event m PError = false -> has_event m PHangup = false ->
      served e m a (Some e)
  | s_process : forall w r c tr w', has_event m PRead = true \/ has_event m PWrite = true ->
      has_event m PError = false -> has_event m PHangup = false ->
      process W app cs T (ar_scripts a) (e_conn e) w = Ret (r, c, tr, w') ->
      served e m a match r with
                   | DiscardConnection => None
                   | _ => Some (Entry (e_socket e) (e_born e) c (Some r) (e_trace e ++ tr))
                   end.
  Lemma event_served fd m a s s' e : good s -> none_discarded W s -> scripts_ok (ar_scripts a) -> conn_at W s fd e ->
    handle_connection_events linux W app cs T fd m a s = Ret s' ->
    exists o, served e m a o /\ match o with Some e' => conn_at W s' fd e' | None => In (Some (e_socket e)) (k_closed (ker s')) end.
  Proof.
    intros H Hn Hs Hc E. unfold handle_connection_events in E. rewrite Hc in E.
    destruct (has_event m PError || has_event m PHangup) eqn:E1.
    { injection E as <-. exists None. split; [apply s_broken; now apply orb_true_iff|].
      rewrite (dr_closed _ _ _ _ _ (drop_erase_remove linux W fd e s Hc (good_open _ _ _ H Hc))). apply in_or_app. right. now left. }
    apply orb_false_iff in E1 as [E1 E2]. destruct (negb (has_event m PRead) && negb (has_event m PWrite)) eqn:E3.
    { injection E as <-. exists (Some e). apply andb_true_iff in E3 as [E3 E4]. apply negb_true_iff in E3, E4. split; [now apply s_nothing|exact Hc]. }
    assert (E4 : has_event m PRead = true \/ has_event m PWrite = true).
    { destruct (has_event m PRead); [now left|]. destruct (has_event m PWrite); [now right|discriminate E3]. }
    set (s1 := if has_event m PWrite then set linux W (ctl_ok 0 a) fd PRead s else s) in *.
    assert (G1 : good s1) by (unfold s1; destruct (has_event m PWrite); [apply set_good; [exact H|right; now exists e]|exact H]).
    assert (C1 : conns s1 = conns s) by (unfold s1; now destruct (has_event m PWrite)). clearbody s1.
    destruct (process W app cs T (ar_scripts a) (e_conn e) (sv_world W s1)) as [[[[r c] tr] w]| | |] eqn:Ep; cbn [obind] in E; try discriminate E.
    pose proof (s_process e m a _ _ _ _ _ E4 E1 E2 Ep) as Hs'.
    set (e' := Entry (e_socket e) (e_born e) c (Some r) (e_trace e ++ tr)) in *. set (s2 := set_world W w (set_conns W (mput fd e' (conns s1)) s1)) in *.
    assert (N2 : mget fd (conns s2) = Some e') by (unfold s2; cbn [set_world set_conns sv_conns]; now rewrite mget_mput, Z.eqb_refl).
    eexists. split; [exact Hs'|]. destruct r; injection E as <-; [exact N2|exact N2|].
    assert (O2 : mget fd (k_open (ker s2)) = Some (e_socket e')) by (apply (good_open s1 fd e G1); unfold conn_at; now rewrite C1).
    rewrite (dr_closed _ _ _ _ _ (drop_remove_erase linux W fd e' s2 N2 O2)). apply in_or_app. right. now left.
  Qed.
  Lemma not_there s e : good s -> In (Some (e_socket e)) (k_closed (ker s)) -> became W s 0 e None.
  Proof.
    intros H K (fd & e' & He & Ee). destruct (g_sock _ _ _ _ _ _ _ _ s H) as (_ & S2 & _). apply (S2 fd e' He). now rewrite Ee.
  Qed.
  Lemma batch_kept evs s s' fd e : good s -> none_discarded W s -> Forall around_ok evs -> NoDup (map fst evs) -> fd <> listener -> conn_at W s fd e ->
    handle evs s = Ret s' -> ~ In fd (map fst evs) -> conn_at W s' fd e.
  Proof.
    intros H Hn Ha Hd N Hc E K. unfold conn_at. destruct evs as [|[x [m a]] evs]; [injection E as <-; exact Hc|].
    rewrite (proj1 (batch_delivery ((x, (m, a)) :: evs) s s' fd m a [] H Hn Ha ltac:(rewrite map_app; apply nodup_snoc; assumption) N e Hc E)). exact Hc.
  Qed.
  Lemma batch_served evs s s' fd e m a : good s -> none_discarded W s -> Forall around_ok evs -> NoDup (map fst evs) -> fd <> listener -> conn_at W s fd e ->
    handle evs s = Ret s' -> In (fd, (m, a)) evs -> exists o, served e m a o /\ became W s' fd e o.
  Proof.
    intros H Hn Ha Hd N Hc E K. apply in_split in K as (l & l' & ->). apply handle_app in E as (s1 & E1 & E). apply Forall_app in Ha as [Ha Ha'].
    apply Forall_cons_iff in Ha' as [Hx Ha']. cbn [snd] in Hx. pose proof (batch_delivery l s s1 fd m a l' H Hn Ha Hd N e Hc E1) as P.
    destruct (batch_good _ _ _ H Hn Ha E1) as [G1 N1]. assert (C1 : conn_at W s1 fd e) by (unfold conn_at; now rewrite (proj1 P)).
    cbn [handle_events] in E. destruct (Z.eqb_spec fd listener) as [Q|_]; [easy|].
    destruct (handle_connection_events linux W app cs T fd m a s1) as [s2| | |] eqn:E2; try discriminate E. cbn [obind] in E.
    destruct (events_good _ _ _ _ _ G1 N1 Hx E2) as [G2 N2]. destruct (event_served fd m a s1 s2 e G1 N1 Hx C1 E2) as (o & O1 & O2).
    exists o. split; [exact O1|]. rewrite map_app in Hd. cbn [map fst] in Hd. pose proof (NoDup_remove_1 _ _ _ Hd) as Hd1. apply NoDup_remove_2 in Hd.
    assert (Hl' : NoDup (map fst l') /\ ~ In fd (map fst l')).
    { split; [|intros Q; apply Hd, in_or_app; now right]. clear -Hd1. induction (map fst l) as [|y ys IH]; [exact Hd1|]. inversion Hd1. auto. }
    destruct o as [e'|].
    - exact (batch_kept l' s2 s' fd e' G2 N2 Ha' (proj1 Hl') N O2 E (proj2 Hl')).
    - exact (not_there s' e (proj1 (batch_good _ _ _ G2 N2 Ha' E)) (batch_closed _ _ _ G2 N2 Ha' E _ O2)).
  Qed.

  (** Without arrivals there are no new sockets. *)
  Definition shrinks (s s' : server) : Prop :=
    k_objects (ker s') = k_objects (ker s) /\ forall fd, mget fd (conns s') <> None -> mget fd (conns s) <> None.
  Lemma shrinks_trans s1 s2 s3 : shrinks s1 s2 -> shrinks s2 s3 -> shrinks s1 s3.
  Proof. intros [H1 H2] [H3 H4]. split; [congruence|auto]. Qed.
  Lemma dropped_shrinks fd e s s' : dropped W fd e s s' -> shrinks s s'.
  Proof.
    intros D. split; [exact (dr_objects _ _ _ _ _ D)|]. intros x. rewrite (dr_conns _ _ _ _ _ D), mget_mdel. now destruct (x =? fd).
  Qed.
  Lemma set_shrinks ok fd ev s : shrinks s (set linux W ok fd ev s).
  Proof.
    split; [|auto]. unfold set, set_poller, poller_set. cbn [sv_kernel]. destruct linux; [|reflexivity]. unfold epoll_ctl.
    destruct (mhas fd (k_open (ker s))), (mhas fd (pfds s)), (mhas fd (k_watch (ker s))), ok; reflexivity.
  Qed.
  Lemma events_shrinks fd m a s s' : good s -> handle_connection_events linux W app cs T fd m a s = Ret s' -> shrinks s s'.
  Proof.
    intros H E. apply events_cases in E as [->|(e & Hc & [->|(s1 & r & c & tr & w & H1 & Ep & ->)])]; [split; auto| |].
    - exact (dropped_shrinks _ _ _ _ (drop_erase_remove linux W fd e s Hc (good_open _ _ _ H Hc))).
    - assert (G1 : good s1) by (destruct H1 as [->| ->]; [exact H|apply set_good; [exact H|right; now exists e]]).
      assert (C1 : conns s1 = conns s) by (destruct H1 as [->| ->]; auto).
      assert (K1 : shrinks s s1) by (destruct H1 as [->| ->]; [split; auto|apply set_shrinks]). cbv zeta.
      set (e' := Entry _ _ _ _ _). set (s2 := set_world W w _).
      assert (K2 : shrinks s s2).
      { destruct K1 as [K1 _]. split; [exact K1|]. intros x. unfold s2. cbn [set_world set_conns sv_conns]. rewrite mget_mput, C1.
        destruct (Z.eqb_spec x fd) as [->|]; [|auto]. unfold conn_at in Hc. congruence. }
      assert (N2 : mget fd (conns s2) = Some e') by (unfold s2; cbn [set_world set_conns sv_conns]; now rewrite mget_mput, Z.eqb_refl).
      assert (O2 : mget fd (k_open (ker s2)) = Some (e_socket e')) by (apply (good_open s1 fd e G1); unfold conn_at; now rewrite C1).
      destruct r; [exact K2|exact (shrinks_trans _ _ _ K2 (set_shrinks _ _ _ _))|].
      exact (shrinks_trans _ _ _ K2 (dropped_shrinks _ _ _ _ (drop_remove_erase linux W fd e' s2 N2 O2))).
  Qed.
  Lemma batch_shrinks evs : forall s s', good s -> none_discarded W s -> Forall around_ok evs -> ~ In listener (map fst evs) ->
    handle evs s = Ret s' -> shrinks s s'.
  Proof.
    induction evs as [|[fd [m a]] evs IH]; intros s s' H Hn Ha Hl E; [injection E as <-; split; auto|]. cbn [handle_events] in E.
    apply Forall_cons_iff in Ha as [Ha Ha']. cbn [map fst In] in Hl. destruct (Z.eqb_spec fd listener) as [->|_]; [exfalso; auto|].
    destruct (handle_connection_events linux W app cs T fd m a s) as [s1| | |] eqn:E1; try discriminate E. cbn [obind] in E.
    destruct (events_good _ _ _ _ _ H Hn Ha E1) as [G N]. apply (shrinks_trans _ s1); [exact (events_shrinks _ _ _ _ _ H E1)|].
    apply (IH s1 s' G N Ha'); [tauto|exact E].
  Qed.
  Lemma reap_shrinks clock l : forall s, good s -> NoDup (map fst l) -> (forall fd e, In (fd, e) l -> conn_at W s fd e) -> shrinks s (reap linux W clock l s).
  Proof.
    induction l as [|[fd e] l IH]; intros s H Hd Hi; [split; auto|]. cbn [reap]. cbn [map fst] in Hd. inversion Hd as [|y l' D1 D2]; subst y l'.
    pose proof (Hi fd e (or_introl eq_refl)) as Hc. destruct (has_timed_out _ _).
    - pose proof (drop_remove_erase linux W fd e s Hc (good_open _ _ _ H Hc)) as D. set (s1 := erase W fd _) in *.
      apply (shrinks_trans _ s1); [exact (dropped_shrinks _ _ _ _ D)|].
      apply IH; [exact (dropped_good linux listener W app cs T k0 w0 Hl0 _ _ _ _ H Hc D)|exact D2|].
      intros z e' K. unfold conn_at. rewrite (dr_conns _ _ _ _ _ D), mget_mdel. destruct (Z.eqb_spec z fd) as [->|N].
      + exfalso. apply D1. apply in_map_iff. exists (fd, e'). auto.
      + exact (Hi z e' (or_intror K)).
    - apply IH; [exact H|exact D2|]. intros z e' K. exact (Hi z e' (or_intror K)).
  Qed.
  Lemma shrinks_open s s' fd : good s -> good s' -> shrinks s s' -> mget fd (k_open (ker s)) = None -> mget fd (k_open (ker s')) = None.
  Proof.
    intros H H' [_ K] E. destruct (mget fd (k_open (ker s'))) as [n|] eqn:Q; [|reflexivity]. exfalso.
    apply (g_desc _ _ _ _ _ _ _ _ s' H') in Q. assert (X : exists n, mget fd (k_open (ker s)) = Some n); [|destruct X; congruence].
    destruct Q as [Q|[[-> ->]|(e & Q & Qn)]].
    - exists n. apply (g_desc _ _ _ _ _ _ _ _ s H). now left.
    - exists (k_objects k0). apply (g_desc _ _ _ _ _ _ _ _ s H). right. now left.
    - destruct (mget fd (conns s)) as [e'|] eqn:X; [|exfalso; apply (K fd); unfold conn_at in Q; congruence].
      exists (e_socket e'). exact (good_open _ _ _ H X).
  Qed.
  Lemma shrinks_length s s' : good s -> good s' -> shrinks s s' -> lenZ (conns s') <= lenZ (conns s).
  Proof.
    intros H H' [_ K]. destruct (g_limit _ _ _ _ _ _ _ _ s' H') as (_ & M & _).
    assert (X : (length (map fst (conns s')) <= length (map fst (conns s)))%nat).
    { apply NoDup_incl_length; [exact M|]. intros x Hx. apply mget_in, K, mget_in, Hx. }
    rewrite !map_length in X. unfold lenZ. lia.
  Qed.

  (** ** Every event of an iteration *)
  Lemma distinct_all {A} (evs : list (Z * A)) : forall seen, NoDup (map fst evs) -> (forall x, In x (map fst evs) -> ~ In x seen) -> distinct seen evs = evs.
  Proof.
    induction evs as [|[fd x] evs IH]; intros seen Hd Hs; [reflexivity|]. cbn [distinct map fst] in *. inversion Hd as [|y l D1 D2]; subst y l.
    destruct (existsb (Z.eqb fd) seen) eqn:E.
    - apply existsb_exists in E as (y & Y1 & Y2). apply Z.eqb_eq in Y2 as <-. exfalso. exact (Hs fd (or_introl eq_refl) Y1).
    - f_equal. apply IH; [exact D2|]. intros y Hy [<-|K]; [easy|]. exact (Hs y (or_intror Hy) K).
  Qed.
  Lemma filter_nodup {A B} (f : A -> B) p l : NoDup (map f l) -> NoDup (map f (filter p l)).
  Proof.
    induction l as [|x l IH]; intros H; [exact H|]. cbn [map] in H. inversion H as [|y l' H1 H2]; subst y l'. cbn [filter]. destruct (p x); [|auto].
    cbn [map]. constructor; [|auto]. intros K. apply in_map_iff in K as (y & E & K). apply filter_In in K as [K _]. apply H1. apply in_map_iff. eauto.
  Qed.
  Definition watches (s : server) (fd : Z) : bool := if linux then mhas fd (k_watch (ker s)) else mhas fd (pfds s).
  Lemma wait_all {A} s (evs : list (Z * A)) : NoDup (map fst evs) -> (linux = true -> lenZ evs <= p_size (sv_poller W s)) ->
    k_wait linux (sv_poller W s) (ker s) evs = filter (fun x => watches s (fst x)) evs.
  Proof.
    intros Hd Hs. unfold k_wait, watches. destruct linux.
    - rewrite distinct_all; [|now apply filter_nodup|auto]. apply firstn_all2. specialize (Hs eq_refl). unfold lenZ in Hs.
      assert (X : (length (filter (fun x : Z * A => mhas (fst x) (k_watch (ker s))) evs) <= length evs)%nat).
      { clear. induction evs as [|x evs IH]; [auto|]. cbn [filter]. destruct (mhas (fst x) (k_watch (ker s))); cbn [length]; lia. }
      lia.
    - apply distinct_all; [now apply filter_nodup|auto].
  Qed.
  Definition from_system : Z -> Z := if linux then from_epoll_events else event_to_poll_event.
  Lemma batch_events it s evs : it_wait it = WaitEvents evs -> NoDup (map fst evs) ->
    (linux = true -> lenZ evs <= p_size (sv_poller W (reap_idle_connections linux W (it_clock it) s))) ->
    fst (batch linux W it s) = map (fun x => (fst x, (from_system (fst (snd x)), snd (snd x))))
                                   (filter (fun x => watches (reap_idle_connections linux W (it_clock it) s) (fst x)) evs).
  Proof.
    intros Hw Hd Hs. unfold batch. rewrite Hw. unfold poller_poll. rewrite (wait_all _ evs Hd Hs). fold from_system. destruct (filter _ evs); reflexivity.
  Qed.
  Lemma from_bits m : has_event (from_system m) PRead = Z.testbit m 0 /\ has_event (from_system m) PWrite = Z.testbit m 2 /\
    has_event (from_system m) PError = Z.testbit m 3 /\ has_event (from_system m) PHangup = Z.testbit m 4.
  Proof.
    assert (E : from_system m = from_epoll_events m) by (unfold from_system; now destruct linux). rewrite E.
    unfold from_epoll_events, EPOLLIN, EPOLLOUT, EPOLLHUP, EPOLLERR. rewrite bit0, bit2, bit3, bit4.
    now destruct (Z.testbit m 0), (Z.testbit m 2), (Z.testbit m 3), (Z.testbit m 4).
  Qed.
  Lemma served_from e m a o : served e (from_system m) a o -> served_event W app cs T e m a o.
  Proof.
    destruct (from_bits m) as (B0 & B2 & B3 & B4). intros [H|H1 H2 H3 H4|w r c tr w' H1 H2 H3 Ep].
    - apply served_broken. now rewrite <- B3, <- B4.
    - apply served_nothing; congruence.
    - apply (served_process W app cs T e m a w r c tr w'); [now rewrite <- B0, <- B2|congruence|congruence|exact Ep].
  Qed.
  Lemma reached_watches s : reached true enough_resources [] s -> watches s listener = true /\ forall fd e, conn_at W s fd e -> watches s fd = true.
  Proof.
    intros H. destruct (reached_good linux listener W app cs T k0 w0 Hk0 Hl0 _ _ _ _ H) as (G & _).
    destruct (reached_watched linux listener W app cs T k0 w0 Hk0 Hl0 _ _ H) as ((W1 & W2) & _). destruct (g_stale _ _ _ _ _ _ _ _ s G) as [_ S2].
    assert (X : forall fd v, mget fd (pfds s) = Some v -> watches s fd = true).
    { intros fd v E. unfold watches. destruct linux; apply mhas_true; [rewrite (S2 eq_refl), E|rewrite E]; discriminate. }
    split; [now apply X in W1|]. intros fd e K. destruct (W2 fd e K) as (v & V & _). now apply X in V.
  Qed.
  Lemma stops_same l : forall s, conns (fold_left (fun s r => stop W r s) l s) = conns s /\ ker (fold_left (fun s r => stop W r s) l s) = ker s.
  Proof. induction l as [|r l IH]; intros s; [auto|]. cbn [fold_left]. destruct (IH (stop W r s)) as [-> ->]. auto. Qed.
  Lemma iterate_served it s s' evs : reached true enough_resources [] s -> iteration_ok it -> it_wait it = WaitEvents evs -> NoDup (map fst evs) ->
    (linux = true -> lenZ evs <= p_size (sv_poller W s)) -> iterate linux listener W app cs T it s = Ret s' ->
    forall fd e, conn_at W s fd e ->
      (expired (it_clock it) fd e = true -> became W s' fd e None) /\
      (expired (it_clock it) fd e = false ->
        (forall m a, In (fd, (m, a)) evs -> exists o, served_event W app cs T e m a o /\ became W s' fd e o) /\
        (~ In fd (map fst evs) -> conn_at W s' fd e)).
  Proof.
    intros H Hok Hw Hd Hs E fd e Hc. destruct (reached_good linux listener W app cs T k0 w0 Hk0 Hl0 _ _ _ _ H) as (G & N & _).
    pose proof (reached_reap linux listener W app cs T k0 w0 _ _ (it_clock it) s H) as H1.
    destruct (reap_all (it_clock it) s G N) as (_ & _ & _ & _ & R5 & R6 & _).
    assert (Hs' : linux = true -> lenZ evs <= p_size (sv_poller W (reap_idle_connections linux W (it_clock it) s))) by (intros Q; rewrite R5; auto).
    pose proof (batch_events it s evs Hw Hd Hs') as Eb.
    destruct (batch_spec linux listener W app cs T k0 w0 Hl0 it s G N) as (B1 & B2 & B3 & _ & B5). specialize (B5 Hok).
    assert (C1 : forall x, mget x (conns (snd (batch linux W it s))) = mget x (conns (reap_idle_connections linux W (it_clock it) s))).
    { intros x. unfold batch. now destruct (poller_poll linux _ _ _). }
    assert (F : fd <> listener) by exact (proj1 (proj2 (proj1 (g_desc _ _ _ _ _ _ _ _ s G) fd e Hc))).
    rewrite iterate_batch in E. destruct (handle (fst (batch linux W it s)) (snd (batch linux W it s))) as [s2| | |] eqn:E2; try discriminate E.
    cbn [obind] in E. injection E as <-. destruct (stops_same (it_stops it) s2) as [X1 X2].
    assert (Y : forall o, became W s2 fd e o -> became W (fold_left (fun s r => stop W r s) (it_stops it) s2) fd e o).
    { intros [e'|]; unfold became, conn_at; now rewrite X1. }
    destruct (batch_good _ _ _ B1 B2 B5 E2) as [G2 _]. split; intros Ex.
    - apply Y. apply (not_there s2 e G2). destruct (reap_all (it_clock it) s G N) as (G1 & N1 & _).
      apply (batch_closed _ _ _ B1 B2 B5 E2). replace (k_closed (ker (snd (batch linux W it s)))) with (k_closed (ker (reap_idle_connections linux W (it_clock it) s)))
        by (unfold batch; now destruct (poller_poll linux _ _ _)).
      (* a socket that is not held is closed *)
      destruct (g_limit _ _ _ _ _ _ _ _ s G) as (_ & M & _).
      pose proof (reap_shrinks (it_clock it) (conns s) s G M (fun x y K => proj2 (mget_entry (conns s) M x y) K)) as Sh. fold (reap_idle_connections linux W (it_clock it) s) in Sh.
      destruct (g_sock _ _ _ _ _ _ _ _ _ G1) as (S1 & _). destruct (g_sock _ _ _ _ _ _ _ _ _ G) as (S1' & _ & S3 & _).
      assert (Q : accepted W k0 (reap_idle_connections linux W (it_clock it) s) (e_socket e)).
      { unfold accepted. rewrite (proj1 Sh). apply S1'. left. eauto. }
      apply S1 in Q as [(x & e' & Q1 & Q2)|Q]; [|exact Q]. exfalso. unfold conn_at in Q1. rewrite R6 in Q1.
      destruct (mget x (conns s)) as [e2|] eqn:Q3; [|discriminate Q1]. destruct (expired (it_clock it) x e2) eqn:Q4; [discriminate Q1|]. injection Q1 as <-.
      pose proof (S3 x e2 fd e Q3 Hc Q2) as ->. unfold conn_at in Hc. congruence.
    - assert (C2 : conn_at W (reap_idle_connections linux W (it_clock it) s) fd e) by (unfold conn_at in *; rewrite R6, Hc, Ex; reflexivity).
      assert (C3 : conn_at W (snd (batch linux W it s)) fd e) by (unfold conn_at; rewrite C1; exact C2).
      assert (Wt : watches (reap_idle_connections linux W (it_clock it) s) fd = true) by exact (proj2 (reached_watches _ H1) fd e C2).
      split.
      + intros m a K. destruct (batch_served _ _ s2 fd e (from_system m) a B1 B2 B5 B3 F C3 E2) as (o & O1 & O2).
        { rewrite Eb. apply in_map_iff. exists (fd, (m, a)). split; [reflexivity|]. apply filter_In. split; [exact K|exact Wt]. }
        exists o. split; [now apply served_from|now apply Y].
      + intros K. apply (Y (Some e)). apply (batch_kept _ _ s2 fd e B1 B2 B5 B3 F C3 E2). rewrite Eb, map_map. cbn [fst].
        intros Q. apply K. apply in_map_iff in Q as (x & <- & Q). apply filter_In in Q as [Q _]. apply in_map, Q.
  Qed.
  (** An arrival is served too; without one there is no new connection. *)
  Lemma iterate_arrival it s s' evs m a fd : reached true enough_resources [] s -> iteration_ok it -> it_wait it = WaitEvents evs -> NoDup (map fst evs) ->
    (linux = true -> lenZ evs <= p_size (sv_poller W s)) -> iterate linux listener W app cs T it s = Ret s' ->
    In (listener, (m, a)) evs -> ar_accept a = AcceptFd fd true -> 0 <= fd -> mget fd (k_open (ker s)) = None -> lenZ (conns s) < 128 ->
    conn_at W s' fd (Entry (k_objects (ker s)) (ar_now a) (fresh_conn (ar_now a)) None []).
  Proof.
    intros H Hok Hw Hd Hs E Ke Ka Hf Ho Hlen. destruct (reached_good linux listener W app cs T k0 w0 Hk0 Hl0 _ _ _ _ H) as (G & N & _).
    pose proof (reached_reap linux listener W app cs T k0 w0 _ _ (it_clock it) s H) as H1.
    destruct (reap_all (it_clock it) s G N) as (G1 & N1 & _ & _ & R5 & R6 & _).
    assert (Hs' : linux = true -> lenZ evs <= p_size (sv_poller W (reap_idle_connections linux W (it_clock it) s))) by (intros Q; rewrite R5; auto).
    pose proof (batch_events it s evs Hw Hd Hs') as Eb.
    destruct (batch_spec linux listener W app cs T k0 w0 Hl0 it s G N) as (B1 & B2 & B3 & B4 & B5). specialize (B5 Hok).
    destruct (g_limit _ _ _ _ _ _ _ _ s G) as (_ & M & _).
    pose proof (reap_shrinks (it_clock it) (conns s) s G M (fun x y K => proj2 (mget_entry (conns s) M x y) K)) as Sh. fold (reap_idle_connections linux W (it_clock it) s) in Sh.
    assert (Sb : shrinks s (snd (batch linux W it s))).
    { destruct Sh as [Sh1 Sh2]. unfold batch. destruct (poller_poll linux _ _ _). split; [exact Sh1|exact Sh2]. }
    rewrite iterate_batch in E. destruct (handle (fst (batch linux W it s)) (snd (batch linux W it s))) as [s2| | |] eqn:E2; try discriminate E.
    cbn [obind] in E. injection E as <-. destruct (stops_same (it_stops it) s2) as [X1 X2]. unfold conn_at. rewrite X1. clear X1 X2.
    assert (K : In (listener, (from_system m, a)) (fst (batch linux W it s))).
    { rewrite Eb. apply in_map_iff. exists (listener, (m, a)). split; [reflexivity|]. apply filter_In. split; [exact Ke|exact (proj1 (reached_watches _ H1))]. }
    assert (Nf : ~ In fd (map fst (fst (batch linux W it s)))).
    { intros Q. pose proof (shrinks_open _ _ _ G B1 Sb Ho) as Ho1. destruct (B4 fd Q) as [->|[e Q']].
      - rewrite (proj2 (proj2 (g_desc _ _ _ _ _ _ _ _ s G) listener (k_objects k0))) in Ho; [discriminate|]. right. now left.
      - rewrite (good_open _ _ _ B1 Q') in Ho1. discriminate. }
    set (b := fst (batch linux W it s)) in *. set (sb := snd (batch linux W it s)) in *. clearbody b sb.
    apply in_split in K as (l & l' & ->). apply handle_app in E2 as (s3 & E3 & E2). apply Forall_app in B5 as [B5 B6]. apply Forall_cons_iff in B6 as [_ B6].
    rewrite map_app in B3, Nf. cbn [map fst] in B3, Nf. pose proof (NoDup_remove_1 _ _ _ B3) as D1. apply NoDup_remove_2 in B3.
    destruct (batch_good _ _ _ B1 B2 B5 E3) as [G3 N3].
    pose proof (shrinks_trans _ _ _ Sb (batch_shrinks l sb s3 B1 B2 B5 ltac:(intros Q; apply B3, in_or_app; now left) E3)) as S3.
    pose proof (shrinks_open _ _ _ G G3 S3 Ho) as Ho3. pose proof (shrinks_length _ _ G G3 S3) as Hl3.
    cbn [handle_events] in E2. rewrite Z.eqb_refl in E2. destruct (handle_incoming_connection linux W a s3) as [s4| | |] eqn:E4; try discriminate E2. cbn [obind] in E2.
    assert (C4 : conn_at W s4 fd (Entry (k_objects (ker s)) (ar_now a) (fresh_conn (ar_now a)) None [])).
    { rewrite <- (proj1 S3). clear E2. unfold handle_incoming_connection, establish_conn, MAX_CONNECTIONS in E4.
      assert (Ht : try_accept a (ker s3) = Ret (Some fd, k_new fd (ker s3))).
      { unfold try_accept. rewrite Ka. apply mhas_false in Ho3. rewrite Ho3. destruct (Z.ltb_spec fd 0); [lia|reflexivity]. }
      rewrite Ht, Z.geb_leb in E4. destruct (Z.leb_spec 128 (lenZ (conns s3))); [lia|]. cbn [negb obind] in E4. destruct (ar_transport a); [|discriminate E4].
      cbn [negb set_kernel sv_kernel k_new k_objects] in E4. rewrite Nat.sub_succ, Nat.sub_0_r in E4. injection E4 as <-. unfold conn_at.
      cbn [set set_poller set_conns sv_conns]. now rewrite mget_mput, Z.eqb_refl. }
    pose proof (incoming_good _ _ _ G3 E4) as G4. pose proof (incoming_none _ _ _ N3 E4) as N4.
    apply (batch_kept l' s4 s2 fd _ G4 N4 B6); [|exact (proj1 (proj2 (proj1 (g_desc _ _ _ _ _ _ _ _ s4 G4) fd _ C4)))|exact C4|exact E2|intros Q; apply Nf, in_or_app; right; now right].
    clear -D1. induction (map fst l) as [|y ys IH]; [exact D1|]. inversion D1. auto.
  Qed.
  Lemma iterate_no_arrival it s s' evs : good s -> none_discarded W s -> iteration_ok it -> it_wait it = WaitEvents evs ->
    iterate linux listener W app cs T it s = Ret s' -> ~ In listener (map fst evs) -> k_objects (ker s') = k_objects (ker s).
  Proof.
    intros G N Hok Hw E Hl. destruct (batch_spec linux listener W app cs T k0 w0 Hl0 it s G N) as (B1 & B2 & B3 & B4 & B5). specialize (B5 Hok).
    destruct (g_limit _ _ _ _ _ _ _ _ s G) as (_ & M & _).
    pose proof (reap_shrinks (it_clock it) (conns s) s G M (fun x y K => proj2 (mget_entry (conns s) M x y) K)) as Sh. fold (reap_idle_connections linux W (it_clock it) s) in Sh.
    assert (Sb : k_objects (ker (snd (batch linux W it s))) = k_objects (ker s)).
    { destruct Sh as [Sh1 Sh2]. unfold batch. destruct (poller_poll linux _ _ _). exact Sh1. }
    rewrite iterate_batch in E. destruct (handle (fst (batch linux W it s)) (snd (batch linux W it s))) as [s2| | |] eqn:E2; try discriminate E.
    cbn [obind] in E. injection E as <-. rewrite (proj2 (stops_same (it_stops it) s2)), <- Sb.
    apply (batch_shrinks _ _ _ B1 B2 B5) in E2; [exact (proj1 E2)|]. intros K. apply Hl. clear -K Hw. unfold batch in K. rewrite Hw in K.
    unfold poller_poll in K. destruct (wait_spec linux (sv_poller W (reap_idle_connections linux W (it_clock it) s)) (ker (reap_idle_connections linux W (it_clock it) s)) evs) as [_ Q].
    destruct (k_wait linux _ _ evs) as [|x l]; [destruct K|]. cbn [fst] in K. rewrite map_map in K. cbn [fst] in K.
    apply in_map_iff in K as (y & <- & K). apply Q in K as [K _]. now apply in_map.
  Qed.
End All.
