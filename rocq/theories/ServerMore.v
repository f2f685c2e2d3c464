(** Connections before the client's preface is complete, and the interest in them. *)
From Verif Require Import Base BaseLemmas SpecFrames Huffman DynTable HpackDec HpackEnc Frames FramesProofs Http Conn
  SpecConn ConnLemmas ConnRule ConnBasic ConnTerm Poller Server SpecServer ServerProofs ServerReach SpecEarly.

Lemma received_app a b : received (a ++ b) = received a ++ received b.
Proof. apply flat_map_app. Qed.
Lemma writes_app a b : writes (a ++ b) = (writes a + writes b)%nat.
Proof. unfold writes. now rewrite filter_app, app_length. Qed.
Lemma signs_app a b : signs (a ++ b) = (signs a + signs b)%nat.
Proof. unfold signs. now rewrite filter_app, app_length. Qed.
Lemma qos_none ev : quiet_or_shutdown ev -> received ev = [] /\ writes ev = 0%nat /\ signs ev = 0%nat.
Proof.
  intros [H| ->]; [|easy]. induction H as [|e ev He _ IH]; [easy|]. destruct e; try easy.
Qed.

Section Early.
  Variable W : Type.
  Variable app : request -> W -> W * app_answer.
  Variable cs : bool.
  Variable T : tree.
  Variable others : W -> W -> Prop.
  Variable t0 : Z.
  Variable w0 : W.
  Notation session := (session W app cs T others t0 w0).
  Notation dispatch := (dispatch W app cs T).

  Definition early (tr : trace) : Prop :=
    (lenZ (received tr) < 24 -> writes tr = 0%nat) /\ Z.of_nat (signs tr) <= 1 + lenZ (received tr) + Z.of_nat (writes tr).
  Record young (c : conn) (tr : trace) : Prop := {
    y_before : c_state c = AwaitingHandshake -> tr = [] /\ c_wbuf c = [] /\ c_rbuf c = [];
    y_after : c_state c <> AwaitingHandshake -> exists t tr', tr = EvHandshake t :: tr';
    y_rbuf : c_state c = AwaitingPreface -> c_rbuf c = received tr;
    y_wbuf : lenZ (received tr) < 24 -> c_wbuf c = [] /\ c_state c <> AwaitingFrame;
    y_early : early tr }.

  Lemma early_quiet tr ev : early tr -> quiet_or_shutdown ev -> early (tr ++ ev).
  Proof.
    intros [H1 H2] Hq. apply qos_none in Hq as (E1 & E2 & E3). unfold early.
    rewrite received_app, writes_app, signs_app, E1, E2, E3, app_nil_r, !Nat.add_0_r. auto.
  Qed.

  Lemma dispatch_young c tr w v c' ev w' : all_bytes (c_rbuf c) -> c_wbuf c = [] -> c_state c <> AwaitingHandshake -> young c tr ->
    dispatch c w = Ret (v, c', ev, w') -> v <> Return DiscardConnection -> v <> Exception -> young c' (tr ++ ev).
  Proof.
    intros Hb Hw Hs [B Af Rb Wb Ey] E V1 V2. pose proof E as E0. apply dispatch_quiet in E0 as (Hq & _ & _); [|exact Hb|exact Hs].
    pose proof (early_quiet _ _ Ey Hq) as Ey'. destruct (qos_none _ Hq) as (Er & _ & _).
    assert (K : (c_state c' <> AwaitingHandshake /\ (c_state c' = AwaitingPreface -> c' = c)) /\
                (c' = c \/ 24 <= lenZ (received tr))).
    { assert (Large : c_state c = AwaitingFrame -> 24 <= lenZ (received tr)).
      { intros K. destruct (Z_lt_ge_dec (lenZ (received tr)) 24) as [L|L]; [|lia]. now apply Wb in L. }
      apply dispatch_inv in E; auto. destruct E as [(E1 & _ & _ & -> & _)|[(_ & _ & _ & -> & _)|[(rest & ev2 & Es & Eb & _ & E)|[(Es & E)|[(_ & -> & _)|[(_ & -> & _)|(_ & -> & _)]]]]]]; try easy.
      - auto.
      - assert (L : 24 <= lenZ (received tr)).
        { rewrite <- (Rb Es), Eb, lenZ_app. change (lenZ CLIENT_PREFACE) with 24. pose proof (lenZ_nonneg rest). lia. }
        split; [|now right]. rewrite Eb in Hb. apply all_bytes_app in Hb as [_ Hb]. apply try_read_frame_inv in E; auto.
        destruct E as [(_ & -> & _)|[(_ & -> & _)|(o & r2 & f & fe & d & e & _ & _ & Hp & Hfe)]]; try easy.
        apply process_frame_inv in Hp. destruct fe as [|st|]; destruct Hfe as [-> ->]; cbn [c_state]; try easy.
        assert (X : st = StProtocolError \/ st = ClientClosed) by (decompose [or and ex] Hp; (left; congruence) || (right; congruence)).
        now destruct X as [-> | ->].
      - apply Large in Es as L. split; [|now right]. apply try_read_frame_inv in E; auto.
        destruct E as [(_ & -> & _)|[(_ & -> & _)|(o & r2 & f & fe & d & e & _ & _ & Hp & Hfe)]]; cbn; try (rewrite Es; easy); try easy.
        apply process_frame_inv in Hp. destruct fe as [|st|]; destruct Hfe as [-> ->]; cbn [c_state]; try (rewrite Es; easy); try easy.
        assert (X : st = StProtocolError \/ st = ClientClosed) by (decompose [or and ex] Hp; (left; congruence) || (right; congruence)).
        now destruct X as [-> | ->]. }
    destruct K as [[K1 K2] K3]. split; try exact Ey'; rewrite ?received_app, ?Er, ?app_nil_r.
    - easy.
    - intros _. destruct (Af Hs) as (t & tr' & ->). now exists t, (tr' ++ ev).
    - intros K. pose proof (K2 K) as K'. rewrite K' in *. exact (Rb K).
    - intros K. destruct K3 as [->|K3]; [auto|lia].
  Qed.

  Lemma session_young A r c tr w : session A r c tr w ->
    (r <> Some DiscardConnection -> young c tr) /\ (r = Some WantWrite -> c_wbuf c <> []) /\ early tr.
  Proof.
    intros H. apply session_any in H.
    eapply (session_rule_buffered W app cs T others t0 w0 any any
      (fun c tr _ => young c tr) (fun r c tr _ => (r <> DiscardConnection -> young c tr) /\ (r = WantWrite -> c_wbuf c <> []) /\ early tr)) in H; auto.
    - destruct H as [H _]. destruct r as [r|]; [|split; [auto|split; [discriminate|apply H]]]. destruct H as (H1 & H2 & H3). split; [intros N; apply H1; congruence|]. split; [intros [= ->]; auto|exact H3].
    - split; cbn; easy.
    - intros now c1 tr1 w1 [B Af Rb Wb [Ew Es]] Hs. destruct (B Hs) as (-> & Ew0 & Er0). split; cbn [c_state c_wbuf c_rbuf].
      + easy.
      + intros _. exists now, []. reflexivity.
      + intros _. cbn. exact Er0.
      + intros _. easy.
      + split; [easy|cbn; lia].
    - intros c1 tr1 w1 Y Hs. split; [auto|split; [discriminate|apply Y]].
    - intros e c1 tr1 w1 [B Af Rb Wb [Ew Es]] Hs _. split; [easy|]. split; [discriminate|]. destruct (B Hs) as [-> _]. split; [easy|cbn; lia].
    - intros wr c1 tr1 w1 c2 ev wr' [B Af Rb Wb [Ew Es]] _ _ Hs E. unfold flush_write_buffer in E. destruct (c_wbuf c1) as [|x b] eqn:Eb.
      { injection E as <- <- _. rewrite app_nil_r. split; rewrite ?Eb; auto; now split. }
      assert (L : 24 <= lenZ (received tr1)). { destruct (Z_lt_ge_dec (lenZ (received tr1)) 24) as [L|L]; [|lia]. now apply Wb in L. }
      assert (N : received ev = [] /\ (signs ev <= writes ev)%nat /\ c_state c2 <> AwaitingHandshake /\ (c_state c2 = AwaitingPreface -> c_state c1 = AwaitingPreface /\ c_rbuf c2 = c_rbuf c1)).
      { destruct wr as [|[now [n|k|e]] wr]; injection E as <- <- _; try (destruct e); cbn; repeat split; auto; easy. }
      destruct N as (N1 & N2 & N3 & N4). split; rewrite ?received_app, ?N1, ?app_nil_r.
      + easy.
      + intros _. destruct (Af Hs) as (t & tr' & ->). now exists t, (tr' ++ ev).
      + intros K. destruct (N4 K) as [K1 ->]. auto.
      + lia.
      + unfold early. rewrite received_app, N1, app_nil_r, writes_app, signs_app. lia.
    - intros c1 tr1 w1 Y _ Hw. split; [auto|split; [auto|apply Y]].
    - intros now o c1 tr1 w1 [B Af Rb Wb [Ew Es]] _ Hw Hs _ Ho Hl _. split; cbn [c_state c_wbuf c_rbuf].
      + easy.
      + intros _. destruct (Af Hs) as (t & tr' & ->). now exists t, (tr' ++ [EvRead now o]).
      + intros K. rewrite received_app, (Rb K). cbn. now rewrite app_nil_r.
      + rewrite received_app, lenZ_app. intros K. split; [exact Hw|]. apply Wb. cbn in K. rewrite app_nil_r in K. lia.
      + unfold early. rewrite received_app, writes_app, signs_app, lenZ_app. change (received [EvRead now o]) with (o ++ []).
        change (writes [EvRead now o]) with 0%nat. change (signs [EvRead now o]) with 1%nat. rewrite app_nil_r, Nat.add_0_r. split; [intros K; apply Ew|]; lia.
    - intros now e c1 tr1 w1 [B Af Rb Wb [Ew Es]] _ Hw Hs _.
      assert (N : received [EvReadError e] = []) by reflexivity. set (c2 := match e with ConnectionClosed => _ | _ => _ end).
      assert (N2 : c2 = c1 \/ c_state c2 = ClientClosed \/ c_state c2 = StProtocolError) by (unfold c2; destruct e; auto).
      assert (N3 : c_wbuf c2 = []) by (unfold c2; destruct e; exact Hw). clearbody c2.
      assert (Ne : early (tr1 ++ [EvReadError e])).
      { unfold early. rewrite received_app, N, app_nil_r, writes_app, signs_app. change (writes [EvReadError e]) with 0%nat. change (signs [EvReadError e]) with 0%nat. rewrite !Nat.add_0_r. auto. }
      split; rewrite ?received_app, ?N, ?app_nil_r; try exact Ne.
      + intros K. destruct N2 as [->|[K'|K']]; congruence.
      + intros _. destruct (Af Hs) as (t & tr' & ->). now exists t, (tr' ++ [EvReadError e]).
      + intros K. destruct N2 as [->|[K'|K']]; [auto|congruence..].
      + intros K. split; [exact N3|]. destruct N2 as [->|[K'|K']]; [now apply Wb|congruence..].
    - intros c1 tr1 w1 c2 ev w2 Y [Hb _] Hw Hs E. eapply dispatch_young; eauto; discriminate.
    - intros c1 tr1 w1 r1 c2 ev w2 Y [Hb _] Hw Hs E. split.
      + intros N. eapply dispatch_young; eauto; congruence.
      + split; [|apply dispatch_quiet in E as (Hq & _); auto; apply early_quiet; [apply Y|exact Hq]]. intros ->. exfalso. apply dispatch_inv in E; auto.
        destruct E as [(_ & _ & ? & _)|[(_ & _ & _ & ? & _)|[(rest & ev2 & _ & Eb & _ & E)|[(_ & E)|[(_ & ? & _)|[(_ & ? & _)|(_ & ? & _)]]]]]]; try easy.
        * rewrite Eb in Hb. apply all_bytes_app in Hb as [_ Hb]. apply try_read_frame_inv in E; auto.
          destruct E as [(? & _)|[(? & _)|(o & r2 & f & fe & d & e & _ & _ & _ & Hfe)]]; try easy. destruct fe; destruct Hfe; easy.
        * apply try_read_frame_inv in E; auto. destruct E as [(? & _)|[(? & _)|(o & r2 & f & fe & d & e & _ & _ & _ & Hfe)]]; try easy. destruct fe; destruct Hfe; easy.
    - intros c1 tr1 w1 c2 ev w2 Y [Hb _] Hw Hs E. apply dispatch_quiet in E as (Hq & _); auto. split; [easy|]. split; [discriminate|]. apply early_quiet; [apply Y|exact Hq].
    - intros r1 c1 tr1 w1 [H1 _] Hr. auto.
  Qed.
End Early.

(** ** After a failed write *)
Definition failed_write_event (e : event) : bool :=
  match e with EvWrite _ _ _ (Error WantReadOrWrite) => false | EvWrite _ _ _ (Error _) => true | _ => false end.
Definition asks (e : event) : bool := match e with EvRequest _ _ | EvLog _ _ _ => true | _ => false end.
Section Failed.
  Variable W : Type.
  Variable app : request -> W -> W * app_answer.
  Variable cs : bool.
  Variable T : tree.
  Variable others : W -> W -> Prop.
  Variable t0 : Z.
  Variable w0 : W.
  Notation session := (session W app cs T others t0 w0).
  Notation dispatch := (dispatch W app cs T).
  Definition over (c : conn) : Prop := c_state c = StProtocolError \/ c_state c = ClientClosed \/ c_state c = Closing.
  (** Nothing is asked after a failed write. *)
  Definition hushed (tr : trace) : Prop := forall a e rest, tr = a ++ e :: rest -> failed_write_event e = true -> existsb asks rest = false.
  Definition no_failure (tr : trace) : Prop := existsb failed_write_event tr = false.
  Lemma hushed_none tr : no_failure tr -> hushed tr.
  Proof. intros H a e rest -> He. unfold no_failure in H. rewrite existsb_app in H. cbn in H. rewrite He in H. now rewrite orb_comm in H. Qed.
  Lemma hushed_app tr ev : hushed tr -> existsb asks ev = false -> hushed (tr ++ ev).
  Proof.
    intros H Hq a e rest E He. symmetry in E. apply app_eq_app in E as (l & [[-> E]|[-> E]]).
    - rewrite E, existsb_app in Hq. apply orb_false_iff in Hq as [_ Hq]. cbn in Hq. now apply orb_false_iff in Hq as [_ Hq].
    - destruct l as [|y l]; cbn [Datatypes.app] in E.
      + rewrite <- E in Hq. cbn in Hq. now apply orb_false_iff in Hq as [_ Hq].
      + injection E as <- ->. rewrite existsb_app. rewrite Hq, orb_false_r. exact (H a e l eq_refl He).
  Qed.
  Lemma quiet_no_failure ev : quiet_or_shutdown ev -> existsb failed_write_event ev = false.
  Proof. intros [H| ->]; [|easy]. induction H as [|e ev He _ IH]; [easy|]. cbn. rewrite IH. now destruct e. Qed.
  Lemma session_over A r c tr w : session A r c tr w -> no_failure tr \/ over c /\ hushed tr.
  Proof.
    intros H. apply session_any in H.
    eapply (session_rule_buffered W app cs T others t0 w0 any any
      (fun c tr _ => no_failure tr \/ over c /\ hushed tr) (fun _ c tr _ => no_failure tr \/ over c /\ hushed tr)) in H; auto.
    - destruct r; apply H.
    - now left.
    - intros now c1 tr1 w1 [K|[K _]] Hs; [|unfold over in K; rewrite Hs in K; destruct K as [K|[K|K]]; discriminate].
      left. unfold no_failure in *. rewrite existsb_app, K. reflexivity.
    - intros e c1 tr1 w1 [K|[K _]] Hs _; [|unfold over in K; rewrite Hs in K; destruct K as [K|[K|K]]; discriminate].
      left. unfold no_failure in *. rewrite existsb_app, K. reflexivity.
    - intros wr c1 tr1 w1 c2 ev wr' HP _ _ Hs E. unfold flush_write_buffer in E. destruct (c_wbuf c1) as [|x b]; [injection E as <- <- _; rewrite app_nil_r; exact HP|].
      assert (Hh : hushed tr1) by (destruct HP as [K|[_ K]]; [now apply hushed_none|exact K]).
      assert (Hq : existsb asks ev = false) by (destruct wr as [|[now [n|k|e]] wr]; injection E as _ <- _; reflexivity).
      assert (D : over c2 \/ (c_state c2 = c_state c1 /\ existsb failed_write_event ev = false)).
      { destruct wr as [|[now [n|k|e]] wr]; injection E as <- <- _; cbn; auto; try (left; now left). destruct e; auto; left; now left. }
      destruct D as [D|[D1 D2]]; [right; split; [exact D|now apply hushed_app]|]. destruct HP as [K|[K _]].
      + left. unfold no_failure in *. now rewrite existsb_app, K.
      + right. split; [unfold over in *; now rewrite D1|now apply hushed_app].
    - intros now o c1 tr1 w1 [K|[K K']] _ _ _ _ _ _ _.
      + left. unfold no_failure in *. now rewrite existsb_app, K.
      + right. split; [exact K|now apply hushed_app].
    - intros now e c1 tr1 w1 [K|[K K']] _ _ _ _.
      + left. unfold no_failure in *. now rewrite existsb_app, K.
      + right. split; [|now apply hushed_app]. unfold over in *. destruct e; cbn [set_state c_state]; auto.
    - intros c1 tr1 w1 c2 ev w2 [K|[K K']] [Hb _] _ Hs E.
      + left. apply dispatch_quiet in E as (Hq & _); auto. unfold no_failure in *. now rewrite existsb_app, K, quiet_no_failure.
      + exfalso. apply dispatch_inv in E; auto. unfold over in K.
        destruct E as [(Es & _)|[(Es & _)|[(rest & ev2 & Es & _)|[(Es & _)|[(_ & ? & _)|[(_ & ? & _)|(_ & ? & _)]]]]]]; try easy; rewrite Es in K; destruct K as [K|[K|K]]; discriminate.
    - intros c1 tr1 w1 r1 c2 ev w2 [K|[K K']] [Hb _] _ Hs E.
      + left. apply dispatch_quiet in E as (Hq & _); auto. unfold no_failure in *. now rewrite existsb_app, K, quiet_no_failure.
      + right. apply dispatch_inv in E; auto. unfold over in *.
        destruct E as [(Es & _)|[(Es & _)|[(rest & ev2 & Es & _)|[(Es & _)|[(_ & _ & -> & -> & _)|[(_ & _ & -> & -> & _)|(Es & _ & -> & -> & _)]]]]]];
          try (rewrite Es in K; destruct K as [K|[K|K]]; discriminate); cbn [set_state c_state enqueue]; (split; [auto|apply hushed_app; [exact K'|reflexivity]]).
    - intros c1 tr1 w1 c2 ev w2 [K|[K K']] [Hb _] _ Hs E.
      + left. apply dispatch_quiet in E as (Hq & _); auto. unfold no_failure in *. now rewrite existsb_app, K, quiet_no_failure.
      + exfalso. apply dispatch_inv in E; auto. unfold over in K.
        destruct E as [(Es & _)|[(Es & _)|[(rest & ev2 & Es & _)|[(Es & _)|[(_ & ? & _)|[(_ & ? & _)|(_ & ? & _)]]]]]]; try easy; rewrite Es in K; destruct K as [K|[K|K]]; discriminate.
  Qed.
  Lemma session_hushed A r c tr w : session A r c tr w -> hushed tr.
  Proof. intros H. destruct (session_over _ _ _ _ _ H) as [K|[_ K]]; [now apply hushed_none|exact K]. Qed.
  Lemma failed_write A r c tr w a t o k x rest : session A r c tr w -> tr = a ++ EvWrite t o k (Error x) :: rest -> x <> WantReadOrWrite ->
    requests rest = [] /\ logged rest = [].
  Proof.
    intros H E Hx. apply session_hushed in H. assert (Hf : failed_write_event (EvWrite t o k (Error x)) = true) by (destruct x; easy). pose proof (H _ _ _ E Hf) as K. clear -K. rename K into E. induction rest as [|e rest IH]; [easy|]. cbn in E.
    apply orb_false_iff in E as [E1 E2]. destruct (IH E2) as [I1 I2]. destruct e; try easy; cbn; auto.
  Qed.
End Failed.

Section Server.
  Variable linux : bool.
  Variable listener : Z.
  Variable W : Type.
  Variable app : request -> W -> W * app_answer.
  Variable cs : bool.
  Variable T : tree.
  Variable k0 : kernel.
  Variable w0 : W.
  Hypothesis Hk0 : in_order k0.
  Hypothesis Hl0 : 0 <= listener /\ mget listener (k_open k0) = None.
  Notation server := (server W).
  Notation conns s := (sv_conns W s).
  Notation pfds s := (p_fds (sv_poller W s)).
  Notation ker s := (sv_kernel W s).
  Notation good := (good linux listener W app cs T k0 w0).
  Notation reached := (reached linux listener W app cs T k0 w0).
  Notation reached_good := (reached_good linux listener W app cs T k0 w0 Hk0 Hl0).
  Notation good_open := (good_open linux listener W app cs T k0 w0 Hl0).

  (** A connection without handshake is watched for reading only. *)
  Definition patient (s : server) : Prop :=
    forall fd e x, conn_at W s fd e -> e_trace e = [] -> mget fd (pfds s) = Some x -> x = PRead.
  Lemma set_fds ok fd ev s x : mget x (pfds (set linux W ok fd ev s)) = mget x (pfds s) \/
    x = fd /\ mget x (pfds (set linux W ok fd ev s)) = Some ev.
  Proof.
    destruct (Z.eq_dec x fd) as [->|N]; [|left; now apply set_part]. unfold set, set_poller, poller_set. cbn [sv_poller].
    destruct linux; [|right; cbn [fst p_fds]; now rewrite mget_mput, Z.eqb_refl]. destruct (epoll_ctl _ _ _ _ _) as [[] k]; [right|now left].
    cbn [fst p_fds]. now rewrite mget_mput, Z.eqb_refl.
  Qed.
  Lemma reached_patient ok A pending s : reached ok A pending s -> patient s.
  Proof.
    induction 1 as [stopped|clock s H IH|it s evs p H IH Hok HA E|m a pending s s' H IH E|fd m a pending s s' H IH Hf E|pending s r H IH];
      try (destruct (reached_good _ _ _ _ H) as (G & Hn & Ha)).
    - intros fd e x. discriminate.
    - destruct (reap_all linux listener W app cs T k0 w0 Hl0 clock s G Hn) as (_ & _ & _ & _ & _ & I6 & I7).
      intros fd e x. unfold conn_at. rewrite I6, I7. destruct (mget fd (conns s)) as [e'|] eqn:Ee; [|discriminate]. destruct (expired clock fd e'); [discriminate|].
      intros [= <-]. exact (IH fd e' x Ee).
    - destruct (poll_spec linux listener W app cs T k0 w0 _ _ _ _ G E) as (P1 & _ & _). intros fd e x Hc. cbn [set_poller sv_poller fst]. rewrite P1. exact (IH fd e x Hc).
    - intros x e v. unfold conn_at. apply (incoming_cases linux W app w0) in E as [->|[(fd & H1 & H2 & H3 & ->)|(fd & H1 & H2 & H3 & ->)]]; [apply IH|apply IH|].
      destruct (set_fds (ctl_ok 0 a) fd PRead (set_conns W (mput fd (Entry (k_objects (ker s)) (ar_now a) (fresh_conn (ar_now a)) None []) (conns s))
        (set_kernel W (k_new fd (ker s)) s)) x) as [K|[-> K]]; [|rewrite K; now intros _ _ [= <-]].
      rewrite K. cbn [set set_poller set_conns sv_conns sv_poller set_kernel]. rewrite mget_mput. destruct (Z.eqb_spec x fd) as [->|N]; [|apply IH].
      intros _ _ K'. exfalso. assert (K2 : fd = listener \/ exists e, conn_at W s fd e) by exact (proj1 (g_stale _ _ _ _ _ _ _ _ s G) fd v K').
      assert (mget listener (k_open (ker s)) = Some (k_objects k0)) by (apply (g_desc _ _ _ _ _ _ _ _ s G); auto).
      destruct K2 as [->|[e2 K2]]; [congruence|]. apply (good_open _ _ _ G) in K2. congruence.
    - apply Forall_cons_iff in Ha as [Ha _]. pose proof E as E0. destruct (events_good linux listener W app cs T k0 w0 Hl0 _ _ _ _ _ G Hn Ha E0) as [G' Hn'].
      intros x e v Hc Ht. destruct (Z.eq_dec x fd) as [->|N].
      2:{ destruct (events_part linux listener W app cs T k0 w0 Hl0 fd m a s s' x G N E) as (P1 & P2 & _). rewrite P2. apply (IH x e); [|exact Ht].
          unfold conn_at in *. congruence. }
      pose proof (proj1 (g_lives _ _ _ _ _ _ _ _ _ G') fd e Hc) as L. destruct (session_young _ _ _ _ _ _ _ _ _ _ _ _ L) as (Y & Yw & _).
      specialize (Y (Hn' fd e Hc)).
      assert (Hs : c_state (e_conn e) = AwaitingHandshake).
      { destruct (c_state (e_conn e)) eqn:Es; try reflexivity; destruct (y_after _ _ Y) as (t & tr' & K); rewrite ?Es; try discriminate; rewrite K in Ht; discriminate. }
      destruct (y_before _ _ Y Hs) as (_ & Hw & _).
      apply events_cases in E as [->|(e1 & Hc1 & [->|(s1 & r & c & tr & w & H1 & Ep & ->)])].
      + exact (IH fd e v Hc Ht).
      + exfalso. pose proof (drop_erase_remove linux W fd e1 s Hc1 (good_open _ _ _ G Hc1)) as D. unfold conn_at in Hc.
        rewrite (dr_conns _ _ _ _ _ D), mget_mdel, Z.eqb_refl in Hc. discriminate.
      + cbv zeta in *. set (e2 := Entry _ _ c _ _) in *. set (s2 := set_world _ _ _) in *.
        assert (Hc2 : mget fd (conns s2) = Some e2) by (unfold s2; cbn [set_world set_conns sv_conns]; now rewrite mget_mput, Z.eqb_refl).
        assert (J : e_trace e2 = [] -> mget fd (pfds s2) = Some v -> v = PRead).
        { intros Kt. unfold s2. cbn [set_world set_conns sv_poller]. cbn [e2 e_trace] in Kt. apply app_eq_nil in Kt as [Kt _].
          destruct H1 as [->| ->]; [exact (IH fd e1 v Hc1 Kt)|]. destruct (set_fds (ctl_ok 0 a) fd PRead s fd) as [->|[_ ->]]; [exact (IH fd e1 v Hc1 Kt)|now intros [= <-]]. }
        destruct r.
        * unfold conn_at in Hc. rewrite Hc2 in Hc. injection Hc as <-. exact (J Ht).
        * exfalso. unfold conn_at in Hc. change (conns (set linux W (ctl_ok 1 a) fd (Z.lor PRead PWrite) s2)) with (conns s2) in Hc. rewrite Hc2 in Hc. injection Hc as <-.
          apply Yw; [reflexivity|exact Hw].
        * exfalso. assert (O2 : mget fd (k_open (ker s2)) = Some (e_socket e2)).
          { pose proof (good_open _ _ _ G Hc1) as O. unfold s2. cbn [set_world set_conns sv_kernel]. destruct H1 as [->| ->]; [exact O|].
            unfold set, set_poller, poller_set. cbn [sv_kernel]. destruct linux; [|exact O]. unfold epoll_ctl.
            destruct (mhas fd (k_open (ker s))), (mhas fd (pfds s)), (mhas fd (k_watch (ker s))), (ctl_ok 0 a); cbn [negb snd k_open]; exact O. }
          pose proof (drop_remove_erase linux W fd e2 s2 Hc2 O2) as D. unfold conn_at in Hc. rewrite (dr_conns _ _ _ _ _ D), mget_mdel, Z.eqb_refl in Hc. discriminate.
    - exact IH.
  Qed.

  Lemma without_handshake s : good s -> none_discarded W s -> forall fd e, conn_at W s fd e -> e_trace e = [] -> c_state (e_conn e) = AwaitingHandshake.
  Proof.
    intros G Hn fd e Hc Ht. pose proof (proj1 (g_lives _ _ _ _ _ _ _ _ _ G) fd e Hc) as L. destruct (session_young _ _ _ _ _ _ _ _ _ _ _ _ L) as (Y & _).
    specialize (Y (Hn fd e Hc)).
    destruct (c_state (e_conn e)) eqn:Es; try reflexivity; destruct (y_after _ _ Y) as (t & tr' & K); rewrite ?Es; try discriminate; rewrite K in Ht; discriminate.
  Qed.
  Lemma not_handshaken s : good s -> none_discarded W s -> forall fd e, conn_at W s fd e -> ~ handshaken (e_trace e) -> e_trace e = [].
  Proof.
    intros G Hn fd e Hc Hh. pose proof (proj1 (g_lives _ _ _ _ _ _ _ _ _ G) fd e Hc) as L. destruct (session_young _ _ _ _ _ _ _ _ _ _ _ _ L) as (Y & _).
    specialize (Y (Hn fd e Hc)).
    destruct (c_state (e_conn e)) eqn:Es; [now apply (y_before _ _ Y)|..]; destruct (y_after _ _ Y) as (t & tr' & K); rewrite ?Es; try discriminate;
      exfalso; apply Hh; exists t; rewrite K; now left.
  Qed.
  Lemma process_handshake s c w r c' ev w' t hs : c_state c = AwaitingHandshake -> sc_hs s = (t, HsOk) :: hs ->
    process W app cs T s c w = Ret (r, c', ev, w') -> In (EvHandshake t) ev.
  Proof.
    intros Hc Hs. unfold process. cbn [Nat.add internal_process]. rewrite Hc, Hs. cbn [handle_handshake].
    destruct (flush_write_buffer _ _) as [[c1 ev1] wr']. destruct (c_wbuf c1); [|cbn [obind]; intros [= _ _ <- _]; now left].
    destruct (fill_read_buffer _ _) as [[c2 ev2] rd']. destruct (dispatch _ _ _ _ _ _) as [[[[v3 c3] ev3] w3]| | |]; try discriminate. cbn [obind].
    destruct v3; [|cbn [obind]; intros [= _ _ <- _]; now left..].
    match goal with |- context [obind (obind ?x _) _] => destruct x as [[[[v4 c4] ev4] w4]| | |]; try discriminate end. cbn [obind].
    destruct v4; [discriminate|intros [= _ _ <- _]; now left..].
  Qed.

  (** ** Times *)
  Fixpoint gaps (G t0 : Z) (tr : trace) : Prop :=
    match tr with
    | [] => True
    | EvHandshake t :: r | EvRead t _ :: r | EvWrite t _ _ (Val _) :: r => t - t0 <= G /\ gaps G t r
    | _ :: r => gaps G t0 r
    end.
  Lemma gaps_app G a : forall t0 b, gaps G t0 (a ++ b) <-> gaps G t0 a /\ gaps G (last_success t0 a) b.
  Proof. induction a as [|e a IH]; intros t0 b; [cbn; tauto|]. destruct e as [| | | | |? ? ? []| | |]; cbn [Datatypes.app gaps last_success]; rewrite IH; tauto. Qed.
  Lemma gaps_signs G a : forall t0, gaps G t0 a -> last_success t0 a <= t0 + G * Z.of_nat (signs a).
  Proof.
    unfold signs. induction a as [|e a IH]; intros t0; [cbn; lia|]. destruct e as [| | | | |? ? ? []| | |]; cbn [gaps last_success filter sign_of_life length];
      try (apply IH); intros [H1 H2]; apply IH in H2; rewrite Nat2Z.inj_succ, <- Z.add_1_r, Z.mul_add_distr_l; lia.
  Qed.
  (** All signs of life happened in the interval. *)
  Definition during (lo hi : Z) (tr : trace) : Prop :=
    Forall (fun e => match e with EvHandshake t | EvRead t _ | EvWrite t _ _ (Val _) => lo <= t <= hi | _ => True end) tr.
  Lemma during_gaps lo hi G tr : hi - lo <= G -> forall t0, hi - t0 <= G -> during lo hi tr -> gaps G t0 tr.
  Proof.
    intros HG. induction tr as [|e tr IH]; intros t0 H0 D; [exact I|]. apply Forall_cons_iff in D as [De D].
    destruct e as [| | | | |? ? ? []| | |]; cbn [gaps]; try (apply IH; assumption); (split; [lia|apply IH; [lia|exact D]]).
  Qed.
  Lemma during_last lo hi tr : forall t0, during lo hi tr -> last_success t0 tr = t0 \/ lo <= last_success t0 tr.
  Proof.
    induction tr as [|e tr IH]; intros t0 D; [now left|]. apply Forall_cons_iff in D as [De D].
    destruct e as [| | | | |? ? ? []| | |]; cbn [last_success]; try (apply IH; assumption);
      (right; match goal with |- _ <= last_success ?t _ => destruct (IH t D) as [->|K] end; [apply De|exact K]).
  Qed.
  Lemma during_quiet lo hi ev : quiet_or_shutdown ev -> during lo hi ev.
  Proof. intros [H| ->]; [|now repeat constructor]. unfold during. eapply Forall_impl; [|exact H]. intros e He. now destruct e. Qed.
  Lemma fill_during lo hi rd : forall c c' ev rd', Forall (fun u => lo <= u <= hi) (map fst rd) -> fill_read_buffer rd c = (c', ev, rd') ->
    during lo hi ev /\ Forall (fun u => lo <= u <= hi) (map fst rd').
  Proof.
    induction rd as [|[now [o|e]] rd IH]; intros c c' ev rd' H; cbn [fill_read_buffer]; destruct (_ >=? _); try (intros [= <- <- <-]; split; [constructor|exact H]).
    - cbn [map fst] in H. apply Forall_cons_iff in H as [H H']. destruct (fill_read_buffer rd _) as [[c2 ev2] rd2] eqn:E. intros [= <- <- <-].
      destruct (IH _ _ _ _ H' E) as [I1 I2]. split; [constructor; [exact H|exact I1]|exact I2].
    - cbn [map fst] in H. apply Forall_cons_iff in H as [H H']. intros [= <- <- <-]. split; [now repeat constructor|exact H'].
  Qed.
  Lemma flush_during lo hi wr c c' ev wr' : Forall (fun u => lo <= u <= hi) (map fst wr) -> flush_write_buffer wr c = (c', ev, wr') ->
    during lo hi ev /\ Forall (fun u => lo <= u <= hi) (map fst wr').
  Proof.
    intros H. unfold flush_write_buffer. destruct (c_wbuf c); [intros [= <- <- <-]; split; [constructor|exact H]|].
    destruct wr as [|[now [n|k|e]] wr]; intros [= <- <- <-]; cbn [map fst] in H; try (apply Forall_cons_iff in H as [H H']); (split; [repeat constructor; apply H|auto]).
  Qed.
  Lemma quiet_during lo hi ev : quiet ev -> during lo hi ev.
  Proof. intros H. apply during_quiet. now left. Qed.
  Lemma try_during lo hi c w v c' ev w' : try_read_frame W app cs T c w = Ret (v, c', ev, w') -> during lo hi ev.
  Proof.
    unfold try_read_frame. destruct (_ <? 9); [intros [= _ _ <- _]; constructor|]. destruct (fh_parse _) as [h| | |]; try discriminate. cbn [obind].
    destruct (_ >? _); [intros [= _ _ <- _]; constructor|]. destruct (_ <? _); [intros [= _ _ <- _]; constructor|].
    destruct (process_frame _ _ _ _ _ _ _ _) as [[[[[fe d] e] w2] ev2]| | |] eqn:E; try discriminate. cbn [obind]. apply process_frame_quiet in E.
    destruct fe; intros [= _ _ <- _]; now apply quiet_during.
  Qed.
  Lemma dispatch_during lo hi c w v c' ev w' : dispatch W app cs T c w = Ret (v, c', ev, w') -> during lo hi ev.
  Proof.
    unfold dispatch. destruct (c_state c).
    - intros [= _ _ <- _]. constructor.
    - unfold read_preface. destruct (_ <? _); [intros [= _ _ <- _]; constructor|]. destruct (bytes_eqb _ _); [|intros [= _ _ <- _]; constructor].
      destruct (try_read_frame _ _ _ _ _ _) as [[[[v2 c2] ev2] w2]| | |] eqn:E; try discriminate. cbn [obind]. apply (try_during lo hi) in E.
      intros [= _ _ <- _]. constructor; [exact I|exact E].
    - apply try_during.
    - intros [= _ _ <- _]. now repeat constructor.
    - unfold close. destruct (c_state c); intros [= _ _ <- _]; now repeat constructor.
    - intros [= _ _ <- _]. constructor.
  Qed.
  Lemma handshake_during lo hi hs c r c' ev hs' : Forall (fun u => lo <= u <= hi) (map fst hs) -> handle_handshake hs c = (r, c', ev, hs') ->
    during lo hi ev /\ Forall (fun u => lo <= u <= hi) (map fst hs').
  Proof.
    intros H. unfold handle_handshake. destruct hs as [|[now [|e]] hs]; [intros [= _ _ <- <-]; split; constructor|..];
      cbn [map fst] in H; apply Forall_cons_iff in H as [H H']; [|destruct e]; intros [= _ _ <- <-]; (split; [repeat constructor; apply H|exact H']).
  Qed.
  Lemma loop_during lo hi fuel : forall s c w v c' ev w', Forall (fun u => lo <= u <= hi) (script_times s) ->
    internal_process W app cs T fuel s c w = Ret (v, c', ev, w') -> during lo hi ev.
  Proof.
    induction fuel as [|fuel IH]; intros s c w v c' ev w' Ht E; [discriminate|]. cbn [internal_process] in E.
    apply Forall_app in Ht as [Hh Ht]. apply Forall_app in Ht as [Hr Hw].
    destruct (match c_state c with AwaitingHandshake => _ | _ => _ end) as [[[r c0] ev0] hs'] eqn:E0.
    assert (R0 : during lo hi ev0 /\ Forall (fun u => lo <= u <= hi) (map fst hs')).
    { destruct (c_state c); [exact (handshake_during _ _ _ _ _ _ _ _ Hh E0)|..]; injection E0 as _ _ <- <-; (split; [constructor|exact Hh]). }
    destruct R0 as [R0 Hh']. destruct r as [r|]; [injection E as _ _ <- _; exact R0|].
    destruct (flush_write_buffer _ _) as [[c1 ev1] wr'] eqn:E1. destruct (flush_during _ _ _ _ _ _ _ Hw E1) as [R1 Hw'].
    destruct (c_wbuf c1); [|injection E as _ _ <- _; apply Forall_app; auto].
    destruct (fill_read_buffer _ _) as [[c2 ev2] rd'] eqn:E2. destruct (fill_during _ _ _ _ _ _ _ Hr E2) as [R2 Hr'].
    destruct (dispatch _ _ _ _ _ _) as [[[[v3 c3] ev3] w3]| | |] eqn:E3; try discriminate. cbn [obind] in E. apply (dispatch_during lo hi) in E3.
    destruct v3; [|injection E as _ _ <- _; repeat (apply Forall_app; split); assumption..].
    destruct (internal_process _ _ _ _ _ _ _ _) as [[[[v4 c4] ev4] w4]| | |] eqn:E4; try discriminate. cbn [obind] in E.
    apply IH in E4; [|repeat (apply Forall_app; split); assumption].
    injection E as _ _ <- _. repeat (apply Forall_app; split); assumption.
  Qed.
  Lemma process_during lo hi s c w r c' ev w' : Forall (fun u => lo <= u <= hi) (script_times s) ->
    process W app cs T s c w = Ret (r, c', ev, w') -> during lo hi ev.
  Proof.
    unfold process. intros H. destruct (internal_process _ _ _ _ _ _ _ _) as [[[[v c1] ev1] w1]| | |] eqn:E; try discriminate. cbn [obind]. apply (loop_during lo hi) in E; [|exact H].
    destruct v; [discriminate|intros [= _ _ <- _]; exact E..].
  Qed.

  (** The signs of life of all connections come at least every 5 s, but for the time an
      iteration takes. *)
  Definition IDLE := 5000000000.
  Definition regular (d : Z) (e : entry) : Prop := gaps (IDLE + d) (e_born e) (e_trace e).
  Definition all_regular (d : Z) (s : server) : Prop := forall e, anyone W s e -> regular d e.
  (** During an iteration that began at [t]. *)
  Definition recent (t : Z) (s : server) : Prop := forall fd e, conn_at W s fd e -> t - IDLE <= last_success (e_born e) (e_trace e).

  Lemma dropped_anyone fd e s s' : conn_at W s fd e -> dropped W fd e s s' -> forall x, anyone W s' x -> anyone W s x.
  Proof.
    intros Hc D x [[y K]|K].
    - unfold conn_at in K. rewrite (dr_conns _ _ _ _ _ D), mget_mdel in K. destruct (y =? fd); [discriminate|]. left. now exists y.
    - rewrite (dr_gone _ _ _ _ _ D) in K. apply in_app_iff in K as [K|[<-|[]]]; [now right|left; now exists fd].
  Qed.
  Lemma event_regular d t fd m a s s' : 0 <= d -> good s -> none_discarded W s -> all_regular d s -> recent t s ->
    Forall (fun u => t <= u <= t + d) (script_times (ar_scripts a)) ->
    handle_connection_events linux W app cs T fd m a s = Ret s' -> all_regular d s' /\ recent t s'.
  Proof.
    intros Hd G Hn Hr Ht Ha E. apply events_cases in E as [->|(e & Hc & [->|(s1 & r & c & tr & w & H1 & Ep & ->)])]; [auto| |].
    - pose proof (drop_erase_remove linux W fd e s Hc (good_open _ _ _ G Hc)) as D. split.
      + intros x K. apply Hr. exact (dropped_anyone _ _ _ _ Hc D x K).
      + intros x e'. unfold conn_at. rewrite (dr_conns _ _ _ _ _ D), mget_mdel. destruct (x =? fd); [discriminate|]. apply Ht.
    - cbv zeta. set (e2 := Entry _ _ c _ _). set (s2 := set_world _ _ _).
      assert (C1 : conns s1 = conns s /\ sv_gone W s1 = sv_gone W s) by (destruct H1 as [->| ->]; split; reflexivity). destruct C1 as [C1 C1'].
      apply (process_during t (t + d)) in Ep; [|exact Ha].
      assert (R2 : regular d e2 /\ t - IDLE <= last_success (e_born e2) (e_trace e2)).
      { unfold regular, e2. cbn [e_born e_trace]. rewrite gaps_app, last_success_app. pose proof (Ht fd e Hc) as L. split.
        - split; [apply Hr; left; now exists fd|]. apply during_gaps with t (t + d); [unfold IDLE; lia| |exact Ep]. lia.
        - destruct (during_last t (t + d) tr (last_success (e_born e) (e_trace e)) Ep) as [->|K]; [exact L|unfold IDLE; lia]. }
      assert (A2 : forall x, anyone W s2 x -> x = e2 \/ anyone W s x).
      { intros x [[y K]|K].
        - unfold conn_at, s2 in K. cbn [set_world set_conns sv_conns] in K. rewrite mget_mput, C1 in K. destruct (y =? fd); [injection K as <-; now left|]. right. left. now exists y.
        - right. right. unfold s2 in K. cbn [set_world set_conns sv_gone] in K. now rewrite <- C1'. }
      assert (T2 : recent t s2).
      { intros y x K. unfold conn_at, s2 in K. cbn [set_world set_conns sv_conns] in K. rewrite mget_mput, C1 in K. destruct (y =? fd); [injection K as <-; apply R2|]. exact (Ht y x K). }
      assert (Rg2 : all_regular d s2) by (intros x K; apply A2 in K as [->|K]; [apply R2|now apply Hr]).
      assert (Hc2 : mget fd (conns s2) = Some e2) by (unfold s2; cbn [set_world set_conns sv_conns]; now rewrite mget_mput, Z.eqb_refl).
      destruct r; [split; assumption|split; assumption|].
      assert (O2 : mget fd (k_open (ker s2)) = Some (e_socket e2)).
      { pose proof (good_open _ _ _ G Hc) as O. unfold s2. cbn [set_world set_conns sv_kernel]. destruct H1 as [->| ->]; [exact O|].
        unfold set, set_poller, poller_set. cbn [sv_kernel]. destruct linux; [|exact O]. unfold epoll_ctl.
        destruct (mhas fd (k_open (ker s))), (mhas fd (pfds s)), (mhas fd (k_watch (ker s))), (ctl_ok 0 a); cbn [negb snd k_open]; exact O. }
      pose proof (drop_remove_erase linux W fd e2 s2 Hc2 O2) as D. split.
      + intros x K. apply Rg2. exact (dropped_anyone _ _ _ _ Hc2 D x K).
      + intros x e'. unfold conn_at. rewrite (dr_conns _ _ _ _ _ D), mget_mdel. destruct (x =? fd); [discriminate|]. apply T2.
  Qed.
  Lemma incoming_regular d t a s s' : 0 <= d -> all_regular d s -> recent t s -> t <= ar_now a ->
    handle_incoming_connection linux W a s = Ret s' -> all_regular d s' /\ recent t s'.
  Proof.
    intros Hd Hr Ht Ha E. apply (incoming_cases linux W app w0) in E as [->|[(fd & H1 & H2 & H3 & ->)|(fd & H1 & H2 & H3 & ->)]]; [auto|auto|]. split.
    - intros x [[y K]|K]; [|apply Hr; now right]. unfold conn_at in K. cbn [set set_poller set_conns sv_conns] in K. rewrite mget_mput in K.
      destruct (y =? fd); [injection K as <-; exact I|]. apply Hr. left. now exists y.
    - intros y x K. unfold conn_at in K. cbn [set set_poller set_conns sv_conns] in K. rewrite mget_mput in K.
      destruct (y =? fd); [injection K as <-; cbn; unfold IDLE; lia|]. exact (Ht y x K).
  Qed.
  Lemma batch_regular d t evs : forall s s', 0 <= d -> good s -> none_discarded W s -> Forall around_ok evs -> all_regular d s -> recent t s ->
    Forall (fun x : Z * (Z * surroundings) => t <= ar_now (snd (snd x)) <= t + d /\ Forall (fun u => t <= u <= t + d) (script_times (ar_scripts (snd (snd x))))) evs ->
    handle_events linux listener W app cs T evs s = Ret s' -> all_regular d s'.
  Proof.
    induction evs as [|[fd [m a]] evs IH]; intros s s' Hd G Hn Ho Hr Ht Ha E; [injection E as <-; exact Hr|]. cbn [handle_events] in E.
    apply Forall_cons_iff in Ho as [Ho Ho']. apply Forall_cons_iff in Ha as [[Ha1 Ha2] Ha']. cbn [fst snd] in *.
    destruct (Z.eqb_spec fd listener) as [->|N].
    - destruct (handle_incoming_connection linux W a s) as [s1| | |] eqn:E1; try discriminate E. cbn [obind] in E.
      destruct (incoming_regular d t a s s1 Hd Hr Ht (proj1 Ha1) E1) as [R1 T1]. apply (IH s1); auto.
      + exact (incoming_good linux listener W app cs T k0 w0 Hl0 _ _ _ G E1).
      + exact (incoming_none linux W app w0 _ _ _ Hn E1).
    - destruct (handle_connection_events linux W app cs T fd m a s) as [s1| | |] eqn:E1; try discriminate E. cbn [obind] in E.
      destruct (event_regular d t fd m a s s1 Hd G Hn Hr Ht Ha2 E1) as [R1 T1].
      destruct (events_good linux listener W app cs T k0 w0 Hl0 _ _ _ _ _ G Hn Ho E1) as [G1 N1]. apply (IH s1); auto.
  Qed.
  Lemma erase_anyone fd s x : anyone W (erase W fd (remove linux W fd s)) x -> anyone W s x.
  Proof.
    unfold erase. change (sv_conns W (remove linux W fd s)) with (conns s). destruct (mget fd (conns s)) as [e|] eqn:Ec; [|auto].
    intros [[y K]|K].
    - unfold conn_at in K. cbn [sv_conns] in K. rewrite mget_mdel in K. destruct (y =? fd); [discriminate|]. left. now exists y.
    - cbn [sv_gone] in K. apply in_app_iff in K as [K|[<-|[]]]; [now right|left; now exists fd].
  Qed.
  Lemma reap_anyone clock l : forall s x, anyone W (reap linux W clock l s) x -> anyone W s x.
  Proof.
    induction l as [|[fd e] l IH]; intros s x; [auto|]. cbn [reap]. intros K. apply IH in K. destruct (has_timed_out _ _); [now apply erase_anyone in K|exact K].
  Qed.
  Lemma stops_same l : forall s, conns (fold_left (fun s r => stop W r s) l s) = conns s /\ sv_gone W (fold_left (fun s r => stop W r s) l s) = sv_gone W s.
  Proof. induction l as [|r l IH]; intros s; [auto|]. cbn [fold_left]. destruct (IH (stop W r s)) as [-> ->]. auto. Qed.
  Lemma iterate_regular d it s s' : 0 <= d -> good s -> none_discarded W s -> iteration_ok it -> in_time d it -> all_regular d s ->
    iterate linux listener W app cs T it s = Ret s' -> all_regular d s'.
  Proof.
    intros Hd G Hn Hok (t & Hc & Ht) Hr E. unfold iterate in E.
    destruct (reap_all linux listener W app cs T k0 w0 Hl0 (it_clock it) s G Hn) as (G1 & N1 & _ & _ & _ & I6 & _).
    assert (R1 : all_regular d (reap_idle_connections linux W (it_clock it) s)) by (intros x K; apply Hr; exact (reap_anyone _ _ _ _ K)).
    assert (T1 : recent t (reap_idle_connections linux W (it_clock it) s)).
    { intros fd e. unfold conn_at. rewrite I6. destruct (mget fd (conns s)) as [e'|] eqn:Ee; [|discriminate].
      pose proof (timed_out_iff _ _ _ _ _ _ _ _ _ _ _ _ (it_clock it fd) (proj1 (g_lives _ _ _ _ _ _ _ _ _ G) fd e' Ee)) as X. fold (expired (it_clock it) fd e') in X.
      destruct (expired (it_clock it) fd e'); [discriminate|]. intros [= <-]. specialize (Hc fd). unfold IDLE.
      destruct (Z_le_gt_dec (it_clock it fd - last_success (e_born e') (e_trace e')) 5000000000) as [K|K]; [lia|]. apply X in K. discriminate. }
    set (s1 := reap_idle_connections linux W (it_clock it) s) in *. clearbody s1.
    destruct (poller_poll linux (it_wait it) (sv_poller W s1) (ker s1)) as [evs p] eqn:Ep.
    pose proof (poll_around linux listener W app cs T k0 w0 _ _ _ _ G1 Hok Ep) as Ha.
    destruct (poll_spec linux listener W app cs T k0 w0 _ _ _ _ G1 Ep) as (P1 & P2 & P3).
    assert (K : forall s2, conns s2 = conns s1 -> sv_gone W s2 = sv_gone W s1 -> all_regular d s2).
    { intros s2 E1 E2 x [[y K]|K]; apply R1; [left; exists y; unfold conn_at in *; congruence|right; congruence]. }
    assert (F : forall s2, all_regular d s2 -> all_regular d (fold_left (fun s r => stop W r s) (it_stops it) s2)).
    { intros s2 H2 x K'. destruct (stops_same (it_stops it) s2) as [S1 S2]. apply H2. destruct K' as [[y K']|K']; [left; exists y; unfold conn_at in *; congruence|right; congruence]. }
    destruct evs as [evs|e]; cbn [obind] in E; [|injection E as <-; apply F, K; reflexivity].
    destruct (handle_events linux listener W app cs T evs _) as [s2| | |] eqn:E2; try discriminate. cbn [obind] in E. injection E as <-. apply F.
    apply (batch_regular d t evs (set_poller W (p, ker s1) s1)); auto.
    - now apply size_good.
    - destruct (P3 evs eq_refl) as (_ & _ & Q). apply Forall_forall. intros [fd [m a]] Kx. destruct (Q _ _ _ Kx) as (raw & m' & Er & Kr).
      rewrite Er in Ht. rewrite Forall_forall in Ht. exact (Ht _ Kr).
  Qed.
  Lemma loop_regular d its : forall s b s', 0 <= d -> good s -> none_discarded W s -> Forall iteration_ok its -> Forall (in_time d) its -> all_regular d s ->
    loop linux listener W app cs T its s = Ret (b, s') -> all_regular d s'.
  Proof.
    induction its as [|it its IH]; intros s b s' Hd G Hn Hok HA Hr E; cbn [loop] in E.
    - destruct (sv_stop W s); injection E as <- <-; exact Hr.
    - destruct (sv_stop W s); [injection E as <- <-; exact Hr|]. apply Forall_cons_iff in Hok as [Hok Hok']. apply Forall_cons_iff in HA as [HA HA'].
      destruct (iterate linux listener W app cs T it s) as [s1| | |] eqn:E1; try discriminate. cbn [obind] in E.
      destruct (iterate_good linux listener W app cs T k0 w0 Hl0 it s s1 G Hn Hok E1) as [G1 N1].
      exact (IH s1 b s' Hd G1 N1 Hok' HA' (iterate_regular d it s s1 Hd G Hn Hok HA Hr E1) E).
  Qed.
  Lemma start_regular d made ok stopped its b s : 0 <= d -> start linux listener W app cs T made ok stopped k0 w0 its = Ret (b, s) ->
    Forall iteration_ok its -> Forall (in_time d) its -> all_regular d s.
  Proof.
    unfold start. destruct made; [|discriminate]. cbn [negb]. intros Hd E Hok HA.
    destruct (first_good linux listener W app cs T k0 w0 Hk0 Hl0 ok stopped) as [G N].
    refine (loop_regular d its _ b s Hd G N Hok HA _ E). intros x [[y K]|[]]. discriminate.
  Qed.

  (** ** The listener *)
  Lemma reached_listens A pending s : reached true A pending s -> mget listener (pfds s) = Some PRead.
  Proof.
    induction 1 as [stopped|clock s H IH|it s evs p H IH Hok HA E|m a pending s s' H IH E|fd m a pending s s' H IH Hf E|pending s r H IH];
      try (destruct (reached_good _ _ _ _ H) as (G & Hn & Ha)).
    - unfold set, set_poller, poller_set. destruct Hk0 as (_ & _ & K3 & _).
      destruct linux; cbn [sv_poller new_poller p_fds sv_kernel fst snd]; [|cbn [mput mdel filter p_fds mget]; now rewrite Z.eqb_refl].
      unfold epoll_ctl. cbn [mhas mget k_new k_open k_watch]. rewrite K3. unfold mhas. rewrite mget_mput, Z.eqb_refl. cbn [negb fst p_fds mget mput mdel filter].
      now rewrite Z.eqb_refl.
    - destruct (reap_all linux listener W app cs T k0 w0 Hl0 clock s G Hn) as (_ & _ & _ & _ & _ & _ & I7). rewrite I7.
      destruct (mget listener (conns s)) as [e|] eqn:El; [|exact IH]. exfalso. now apply (g_desc _ _ _ _ _ _ _ _ _ G) in El.
    - destruct (poll_spec linux listener W app cs T k0 w0 _ _ _ _ G E) as (P1 & _ & _). cbn [set_poller sv_poller fst]. now rewrite P1.
    - destruct (incoming_part linux listener W app cs T k0 w0 Hl0 a s s' listener G E) as (_ & -> & _); [|exact IH].
      assert (K : mget listener (k_open (ker s)) = Some (k_objects k0)) by (apply (g_desc _ _ _ _ _ _ _ _ s G); auto). now rewrite K.
    - destruct (events_part linux listener W app cs T k0 w0 Hl0 fd m a s s' listener G (not_eq_sym Hf) E) as (_ & -> & _). exact IH.
    - exact IH.
  Qed.
  Lemma deaf_iterate it s : linux = true -> conns s = [] -> k_watch (ker s) = [] ->
    exists s', iterate linux listener W app cs T it s = Ret s' /\ conns s' = [] /\ k_watch (ker s') = [] /\ sv_world W s' = sv_world W s /\ k_objects (ker s') = k_objects (ker s).
  Proof.
    intros Hl Hc Hw. unfold iterate, reap_idle_connections. rewrite Hc. cbn [reap].
    assert (E : exists e, poller_poll linux (it_wait it) (sv_poller W s) (ker s) = (Error e, sv_poller W s)).
    { unfold poller_poll, k_wait. rewrite Hl, Hw. destruct (it_wait it) as [|b|evs]; [now eexists..|].
      replace (filter _ evs) with (@nil (Z * (Z * surroundings))); [cbn [distinct]; rewrite firstn_nil; now eexists|]. symmetry. clear. induction evs; auto. }
    destruct E as [e ->]. cbn [obind]. eexists. split; [reflexivity|].
    assert (F : forall l s0, conns s0 = [] -> k_watch (ker s0) = [] -> conns (fold_left (fun s r => stop W r s) l s0) = [] /\
      k_watch (ker (fold_left (fun s r => stop W r s) l s0)) = [] /\ sv_world W (fold_left (fun s r => stop W r s) l s0) = sv_world W s0 /\
      k_objects (ker (fold_left (fun s r => stop W r s) l s0)) = k_objects (ker s0)).
    { clear. induction l as [|r l IH]; intros s0 H1 H2; [auto|]. cbn [fold_left]. exact (IH (stop W r s0) H1 H2). }
    exact (F (it_stops it) (set_poller W (sv_poller W s, ker s) s) Hc Hw).
  Qed.
  Lemma deaf_loop its : forall s, linux = true -> conns s = [] -> k_watch (ker s) = [] ->
    exists b s', loop linux listener W app cs T its s = Ret (b, s') /\ conns s' = [] /\ sv_world W s' = sv_world W s /\ k_objects (ker s') = k_objects (ker s).
  Proof.
    induction its as [|it its IH]; intros s Hl Hc Hw; cbn [loop]; destruct (sv_stop W s); try (now eexists _, _).
    destruct (deaf_iterate it s Hl Hc Hw) as (s1 & -> & C1 & W1 & X1 & O1). cbn [obind]. destruct (IH s1 Hl C1 W1) as (b & s' & E & C & X & O).
    exists b, s'. split; [exact E|]. split; [exact C|]. split; congruence.
  Qed.
  Lemma deaf_start stopped its : linux = true -> exists b s, start linux listener W app cs T true false stopped k0 w0 its = Ret (b, s) /\
    conns s = [] /\ sv_world W s = w0 /\ k_objects (ker s) = S (k_objects k0).
  Proof.
    intros Hl. unfold start. cbn [negb]. set (s0 := set linux W false listener PRead _).
    assert (K : conns s0 = [] /\ k_watch (ker s0) = [] /\ sv_world W s0 = w0 /\ k_objects (ker s0) = S (k_objects k0)).
    { unfold s0, set, set_poller, poller_set. rewrite Hl. destruct Hk0 as (_ & _ & K3 & _). cbn [sv_poller new_poller p_fds mhas mget sv_kernel].
      unfold epoll_ctl. cbn [k_new k_open k_watch]. rewrite K3. unfold mhas. rewrite mget_mput, Z.eqb_refl. cbn [negb fst snd p_fds sv_conns sv_kernel sv_world k_watch k_objects mget].
      auto. }
    destruct K as (K1 & K2 & K3 & K4). destruct (deaf_loop its s0 Hl K1 K2) as (b & s & E & C & X & O). exists b, s. split; [exact E|]. split; [exact C|]. split; congruence.
  Qed.
End Server.
