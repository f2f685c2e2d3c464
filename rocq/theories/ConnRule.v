(** A proof rule for sessions: an invariant [P] of the processing loop and a
    postcondition [Q] per result. *)
From Verif Require Import Base BaseLemmas Huffman DynTable HpackDec HpackEnc Frames Http Conn ConnLemmas.

Definition rd_ok (x : Z * rd_result) : Prop :=
  match snd x with
  | RdData o => all_bytes o /\ 1 <= lenZ o <= TEMP_READ_BUFFER_SIZE
  | RdErr _ => True
  end.

Section Rule.
  Variable W : Type.
  Variable app : request -> W -> W * app_answer.
  Variable cs : bool.
  Variable T : tree.
  Variable others : W -> W -> Prop.
  Variable t0 : Z.
  Variable w0 : W.
  (** Which reads and writes are considered. *)
  Variable rd_allowed : Z * rd_result -> Prop.
  Variable wr_allowed : Z * wr_result -> Prop.
  Variable P : conn -> trace -> W -> Prop.
  Variable Q : result -> conn -> trace -> W -> Prop.

  Hypothesis P_start : P (fresh_conn t0) [] w0.
  Hypothesis P_others : forall c tr w w', P c tr w -> others w w' -> P c tr w'.
  Hypothesis Q_others : forall r c tr w w', Q r c tr w -> others w w' -> Q r c tr w'.
  Hypothesis P_hs : forall now c tr w, P c tr w -> c_state c = AwaitingHandshake ->
    P (Conn AwaitingPreface (c_rbuf c) (c_wbuf c) (c_dec c) (c_enc c) now) (tr ++ [EvHandshake now]) w.
  Hypothesis Q_hs : forall c tr w, P c tr w -> c_state c = AwaitingHandshake -> Q WantRead c tr w.
  Hypothesis Q_hs_error : forall e c tr w, P c tr w -> c_state c = AwaitingHandshake -> e <> WantReadOrWrite ->
    Q DiscardConnection c (tr ++ [EvHandshakeError e]) w.
  Hypothesis P_flush : forall wr c tr w c' ev wr', P c tr w -> Forall wr_allowed wr ->
    c_state c <> AwaitingHandshake ->
    flush_write_buffer wr c = (c', ev, wr') -> P c' (tr ++ ev) w.
  Hypothesis Q_blocked : forall c tr w, P c tr w -> c_wbuf c <> [] -> Q WantWrite c tr w.
  Hypothesis P_read : forall now o c tr w, P c tr w -> c_wbuf c = [] -> c_state c <> AwaitingHandshake ->
    rd_allowed (now, RdData o) ->
    all_bytes o -> 1 <= lenZ o <= TEMP_READ_BUFFER_SIZE ->
    lenZ (c_rbuf c) + TEMP_READ_BUFFER_SIZE < MAX_READ_BUFFER_SIZE ->
    P (Conn (c_state c) (c_rbuf c ++ o) (c_wbuf c) (c_dec c) (c_enc c) now) (tr ++ [EvRead now o]) w.
  Hypothesis P_read_error : forall now e c tr w, P c tr w -> c_wbuf c = [] -> c_state c <> AwaitingHandshake ->
    rd_allowed (now, RdErr e) ->
    P (match e with
       | ConnectionClosed => set_state ClientClosed c
       | TransportProtocolError => set_state StProtocolError c
       | _ => c
       end) (tr ++ [EvReadError e]) w.
  Hypothesis P_go : forall c tr w c' ev w', P c tr w -> c_wbuf c = [] -> c_state c <> AwaitingHandshake ->
    dispatch W app cs T c w = Ret (Continue, c', ev, w') -> P c' (tr ++ ev) w'.
  Hypothesis Q_return : forall c tr w r c' ev w', P c tr w -> c_wbuf c = [] -> c_state c <> AwaitingHandshake ->
    dispatch W app cs T c w = Ret (Return r, c', ev, w') -> Q r c' (tr ++ ev) w'.
  Hypothesis Q_exception : forall c tr w c' ev w', P c tr w -> c_wbuf c = [] -> c_state c <> AwaitingHandshake ->
    dispatch W app cs T c w = Ret (Exception, c', ev, w') ->
    Q DiscardConnection (set_state StProtocolError c') (tr ++ ev) w'.
  Hypothesis Q_back : forall r c tr w, Q r c tr w -> r <> DiscardConnection -> P c tr w.

  Lemma flush_rest wr c c' ev wr' (A : _ -> Prop) : flush_write_buffer wr c = (c', ev, wr') ->
    Forall A wr -> Forall A wr'.
  Proof.
    unfold flush_write_buffer. destruct (c_wbuf c); [intros [= _ _ <-]; auto|].
    destruct wr as [|[now [n|k|e]] wr]; intros [= _ _ <-] H; auto; now inversion H.
  Qed.

  Lemma fill_rest (A : _ -> Prop) rd : forall c c' ev rd', fill_read_buffer rd c = (c', ev, rd') ->
    Forall A rd -> Forall A rd'.
  Proof.
    induction rd as [|[now [o|e]] rd IH]; intros c c' ev rd' E H; cbn [fill_read_buffer] in E.
    - destruct (_ >=? _); injection E as _ _ <-; auto.
    - destruct (_ >=? _); [injection E as _ _ <-; auto|]. inversion H; subst.
      destruct (fill_read_buffer rd _) as [[c2 ev2] rd2] eqn:E2. injection E as _ _ <-. eauto.
    - inversion H; subst. destruct (_ >=? _); injection E as _ _ <-; auto.
  Qed.

  Lemma fill_state rd : forall c c' ev rd', fill_read_buffer rd c = (c', ev, rd') ->
    c_wbuf c' = c_wbuf c /\ (c_state c <> AwaitingHandshake -> c_state c' <> AwaitingHandshake).
  Proof.
    induction rd as [|[now [o|e]] rd IH]; intros c c' ev rd' E; cbn [fill_read_buffer] in E.
    - destruct (_ >=? _); injection E as <- _ _; auto.
    - destruct (_ >=? _); [injection E as <- _ _; auto|].
      destruct (fill_read_buffer rd _) as [[c2 ev2] rd2] eqn:E2. injection E as <- _ _.
      apply IH in E2. auto.
    - destruct (_ >=? _); [injection E as <- _ _; auto|]. injection E as <- _ _.
      destruct e; cbn; split; auto; easy.
  Qed.

  Lemma flush_state wr c c' ev wr' : flush_write_buffer wr c = (c', ev, wr') ->
    c_state c <> AwaitingHandshake -> c_state c' <> AwaitingHandshake.
  Proof.
    unfold flush_write_buffer. destruct (c_wbuf c); [intros [= <- _ _]; auto|].
    destruct wr as [|[now [n|k|e]] wr]; intros [= <- _ _] H; cbn; auto; try easy. destruct e; easy.
  Qed.

  Lemma P_fill rd : forall c tr w c' ev rd', P c tr w -> c_wbuf c = [] -> c_state c <> AwaitingHandshake ->
    Forall rd_ok rd -> Forall rd_allowed rd ->
    fill_read_buffer rd c = (c', ev, rd') -> P c' (tr ++ ev) w.
  Proof.
    induction rd as [|[now [o|e]] rd IH]; intros c tr w c' ev rd' HP Hw Hs Hok Hal E; cbn [fill_read_buffer] in E.
    - destruct (_ >=? _); injection E as <- <- <-; now rewrite app_nil_r.
    - destruct (_ >=? _) eqn:Efull; [injection E as <- <- <-; now rewrite app_nil_r|].
      destruct (fill_read_buffer rd _) as [[c2 ev2] rd2] eqn:E2. injection E as <- <- <-.
      inversion Hok as [|? ? Hx Hok']; inversion Hal; subst. destruct Hx as [Hb Hl].
      replace (tr ++ EvRead now o :: ev2) with ((tr ++ [EvRead now o]) ++ ev2) by now rewrite <- app_assoc.
      eapply IH; [| | | | |exact E2]; auto. apply P_read; auto. lia.
    - destruct (_ >=? _); [injection E as <- <- <-; now rewrite app_nil_r|].
      inversion Hal; subst. injection E as <- <- <-. eapply P_read_error; eauto.
  Qed.

  Lemma loop_rule fuel : forall s c tr w v c' ev w',
    P c tr w -> Forall rd_ok (sc_rd s) -> Forall rd_allowed (sc_rd s) -> Forall wr_allowed (sc_wr s) ->
    internal_process W app cs T fuel s c w = Ret (v, c', ev, w') ->
    match v with
    | Continue => False
    | Return r => Q r c' (tr ++ ev) w'
    | Exception => Q DiscardConnection (set_state StProtocolError c') (tr ++ ev) w'
    end.
  Proof.
    induction fuel as [|fuel IH]; intros s c tr w v c' ev w' HP Hok Hrd Hwr E; [easy|].
    cbn [internal_process] in E.
    set (H0 := match c_state c with AwaitingHandshake => handle_handshake (sc_hs s) c | _ => _ end) in E.
    assert (HH : (exists r ev0, H0 = (Some r, c, ev0, tl (sc_hs s)) /\ Q r c (tr ++ ev0) w) \/
                 (exists c0 ev0 hs, H0 = (None, c0, ev0, hs) /\ P c0 (tr ++ ev0) w /\ c_state c0 <> AwaitingHandshake)).
    { subst H0. destruct (c_state c) eqn:Es;
        try (right; exists c, [], (sc_hs s); rewrite app_nil_r; repeat split; auto; congruence).
      unfold handle_handshake. destruct (sc_hs s) as [|[now [|e]] hs'] eqn:Eh.
      - left. exists WantRead, []. rewrite app_nil_r. auto.
      - right. eexists _, _, _. repeat split; auto. cbn. easy.
      - left. destruct e; (eexists _, _; split; [reflexivity|]); try (now apply Q_hs_error).
        rewrite app_nil_r. auto. }
    destruct HH as [(r & ev0 & -> & HQ)|(c0 & ev0 & hs' & -> & HP0 & Hs0)].
    { injection E as <- <- <- <-. exact HQ. }
    destruct (flush_write_buffer (sc_wr s) c0) as [[c1 ev1] wr'] eqn:E1.
    assert (HP1 : P c1 ((tr ++ ev0) ++ ev1) w) by eauto.
    assert (Hs1 : c_state c1 <> AwaitingHandshake) by eauto using flush_state.
    destruct (c_wbuf c1) as [|x xs] eqn:Ew.
    2: { injection E as <- <- <- <-. rewrite app_assoc. apply Q_blocked; auto. congruence. }
    destruct (fill_read_buffer (sc_rd s) c1) as [[c2 ev2] rd'] eqn:E2.
    assert (HP2 : P c2 (((tr ++ ev0) ++ ev1) ++ ev2) w) by (eapply P_fill; eauto).
    destruct (fill_state _ _ _ _ _ E2) as [Hw2 Hs2]. specialize (Hs2 Hs1). rewrite Ew in Hw2.
    destruct (dispatch W app cs T c2 w) as [[[[v3 c3] ev3] w3]| | |] eqn:E3; try easy. cbn [obind] in E.
    replace (tr ++ ev) with (tr ++ ev) by easy.
    destruct v3 as [|r3|].
    - destruct (internal_process W app cs T fuel _ c3 w3) as [[[[v4 c4] ev4] w4]| | |] eqn:E4; try easy.
      cbn [obind] in E. injection E as <- <- <- <-.
      replace (tr ++ ev0 ++ ev1 ++ ev2 ++ ev3 ++ ev4) with
        (((((tr ++ ev0) ++ ev1) ++ ev2) ++ ev3) ++ ev4) by now rewrite <- !app_assoc.
      eapply IH; [| | | |exact E4]; cbn [sc_rd sc_wr]; eauto using fill_rest, flush_rest.
    - injection E as <- <- <- <-.
      replace (tr ++ ev0 ++ ev1 ++ ev2 ++ ev3) with
        ((((tr ++ ev0) ++ ev1) ++ ev2) ++ ev3) by now rewrite <- !app_assoc.
      eapply Q_return; eauto.
    - injection E as <- <- <- <-.
      replace (tr ++ ev0 ++ ev1 ++ ev2 ++ ev3) with
        ((((tr ++ ev0) ++ ev1) ++ ev2) ++ ev3) by now rewrite <- !app_assoc.
      eapply Q_exception; eauto.
  Qed.

  Lemma process_rule s c tr w r c' ev w' :
    P c tr w -> Forall rd_ok (sc_rd s) -> Forall rd_allowed (sc_rd s) -> Forall wr_allowed (sc_wr s) ->
    process W app cs T s c w = Ret (r, c', ev, w') -> Q r c' (tr ++ ev) w'.
  Proof.
    unfold process. intros HP H1 H2 H3 E.
    destruct (internal_process _ _ _ _ _ _ _ _) as [[[[v c1] ev1] w1]| | |] eqn:E1; try easy. cbn [obind] in E.
    eapply loop_rule in E1; eauto. destruct v; [easy| |]; injection E as <- <- <- <-; exact E1.
  Qed.

  Lemma session_rule r c tr w :
    session W app cs T others t0 w0
      (fun s => Forall rd_allowed (sc_rd s) /\ Forall wr_allowed (sc_wr s)) r c tr w ->
    match r with None => P c tr w | Some r => Q r c tr w end.
  Proof.
    induction 1 as [|r c tr w w' _ IH Ho|r c tr w s r' c' ev w' _ IH Hr Hok [Hrd Hwr] E].
    - exact P_start.
    - destruct r; eauto.
    - eapply process_rule; [|exact Hok|exact Hrd|exact Hwr|exact E].
      destruct r as [r|]; [|exact IH]. eapply Q_back; [exact IH|congruence].
  Qed.
End Rule.

(** The receive buffer holds octets, fewer than 65536 of them. *)
Definition buffered (c : conn) : Prop := all_bytes (c_rbuf c) /\ lenZ (c_rbuf c) < MAX_READ_BUFFER_SIZE.

Lemma flush_rbuf wr c c' ev wr' : flush_write_buffer wr c = (c', ev, wr') -> c_rbuf c' = c_rbuf c.
Proof.
  unfold flush_write_buffer. destruct (c_wbuf c); [now intros [= <- _ _]|].
  destruct wr as [|[now [n|k|e]] wr]; intros [= <- _ _]; try reflexivity. now destruct e.
Qed.

Section Buffered.
  Variable W : Type.
  Variable app : request -> W -> W * app_answer.
  Variable cs : bool.
  Variable T : tree.

  Lemma try_read_frame_buffered c w v c' ev w' : buffered c ->
    try_read_frame W app cs T c w = Ret (v, c', ev, w') -> buffered c'.
  Proof.
    intros [Hb Hl] E. apply try_read_frame_inv in E; [|exact Hb].
    destruct E as [(_ & -> & _)|[(_ & -> & _)|(o & rest & f & fe & d & e & Er & _ & _ & Hfe)]].
    - now split.
    - now split.
    - rewrite Er in *. apply all_bytes_app in Hb as [Ho Hr]. rewrite lenZ_app in Hl. pose proof (lenZ_nonneg o).
      destruct fe; destruct Hfe as [_ ->]; split; cbn [c_rbuf]; auto; try lia.
      + now apply all_bytes_app.
      + rewrite lenZ_app. lia.
  Qed.

  Lemma dispatch_buffered c w v c' ev w' : buffered c -> c_state c <> AwaitingHandshake ->
    dispatch W app cs T c w = Ret (v, c', ev, w') -> buffered c'.
  Proof.
    intros HB Hs E. pose proof HB as [Hb Hl]. apply dispatch_inv in E; auto.
    destruct E as [(_ & _ & _ & -> & _)|[(_ & _ & _ & _ & -> & _)|[(rest & ev2 & _ & Er & _ & E)|
      [(_ & E)|[(_ & _ & -> & _)|[(_ & _ & -> & _)|(_ & _ & -> & _)]]]]]]; auto.
    - apply try_read_frame_buffered in E; auto. rewrite Er in *.
      apply all_bytes_app in Hb as [_ Hr]. rewrite lenZ_app in Hl. change (lenZ CLIENT_PREFACE) with 24 in Hl.
      split; cbn [c_rbuf]; auto; lia.
    - now apply try_read_frame_buffered in E.
  Qed.

  Variable others : W -> W -> Prop.
  Variable t0 : Z.
  Variable w0 : W.
  Variable rd_allowed : Z * rd_result -> Prop.
  Variable wr_allowed : Z * wr_result -> Prop.
  Variable P : conn -> trace -> W -> Prop.
  Variable Q : result -> conn -> trace -> W -> Prop.

  (** The rule with [buffered] as an additional invariant. *)
  Lemma session_rule_buffered
    (P_start : P (fresh_conn t0) [] w0)
    (P_others : forall c tr w w', P c tr w -> others w w' -> P c tr w')
    (Q_others : forall r c tr w w', Q r c tr w -> others w w' -> Q r c tr w')
    (P_hs : forall now c tr w, P c tr w -> c_state c = AwaitingHandshake ->
      P (Conn AwaitingPreface (c_rbuf c) (c_wbuf c) (c_dec c) (c_enc c) now) (tr ++ [EvHandshake now]) w)
    (Q_hs : forall c tr w, P c tr w -> c_state c = AwaitingHandshake -> Q WantRead c tr w)
    (Q_hs_error : forall e c tr w, P c tr w -> c_state c = AwaitingHandshake -> e <> WantReadOrWrite ->
      Q DiscardConnection c (tr ++ [EvHandshakeError e]) w)
    (P_flush : forall wr c tr w c' ev wr', P c tr w -> buffered c -> Forall wr_allowed wr ->
      c_state c <> AwaitingHandshake ->
      flush_write_buffer wr c = (c', ev, wr') -> P c' (tr ++ ev) w)
    (Q_blocked : forall c tr w, P c tr w -> buffered c -> c_wbuf c <> [] -> Q WantWrite c tr w)
    (P_read : forall now o c tr w, P c tr w -> buffered c -> c_wbuf c = [] -> c_state c <> AwaitingHandshake ->
      rd_allowed (now, RdData o) ->
      all_bytes o -> 1 <= lenZ o <= TEMP_READ_BUFFER_SIZE ->
      lenZ (c_rbuf c) + TEMP_READ_BUFFER_SIZE < MAX_READ_BUFFER_SIZE ->
      P (Conn (c_state c) (c_rbuf c ++ o) (c_wbuf c) (c_dec c) (c_enc c) now) (tr ++ [EvRead now o]) w)
    (P_read_error : forall now e c tr w, P c tr w -> buffered c -> c_wbuf c = [] ->
      c_state c <> AwaitingHandshake -> rd_allowed (now, RdErr e) ->
      P (match e with
         | ConnectionClosed => set_state ClientClosed c
         | TransportProtocolError => set_state StProtocolError c
         | _ => c
         end) (tr ++ [EvReadError e]) w)
    (P_go : forall c tr w c' ev w', P c tr w -> buffered c -> c_wbuf c = [] -> c_state c <> AwaitingHandshake ->
      dispatch W app cs T c w = Ret (Continue, c', ev, w') -> P c' (tr ++ ev) w')
    (Q_return : forall c tr w r c' ev w', P c tr w -> buffered c -> c_wbuf c = [] ->
      c_state c <> AwaitingHandshake ->
      dispatch W app cs T c w = Ret (Return r, c', ev, w') -> Q r c' (tr ++ ev) w')
    (Q_exception : forall c tr w c' ev w', P c tr w -> buffered c -> c_wbuf c = [] ->
      c_state c <> AwaitingHandshake ->
      dispatch W app cs T c w = Ret (Exception, c', ev, w') ->
      Q DiscardConnection (set_state StProtocolError c') (tr ++ ev) w')
    (Q_back : forall r c tr w, Q r c tr w -> r <> DiscardConnection -> P c tr w) r c tr w :
    session W app cs T others t0 w0
      (fun s => Forall rd_allowed (sc_rd s) /\ Forall wr_allowed (sc_wr s)) r c tr w ->
    match r with None => P c tr w | Some r => Q r c tr w end /\ buffered c.
  Proof.
    intros HS.
    cut (match r with None => P c tr w /\ buffered c | Some r => Q r c tr w /\ buffered c end);
      [destruct r; auto|].
    revert HS. apply (session_rule W app cs T others t0 w0 rd_allowed wr_allowed
      (fun c tr w => P c tr w /\ buffered c) (fun r c tr w => Q r c tr w /\ buffered c)).
    - split; auto. split; [constructor|reflexivity].
    - intros ? ? ? ? [] ?. eauto.
    - intros ? ? ? ? ? [] ?. eauto.
    - intros ? ? ? ? [] ?. eauto.
    - intros ? ? ? [] ?. eauto.
    - intros ? ? ? ? [] ? ?. eauto.
    - intros ? ? ? ? ? ? ? [HP HB] ? ? E. split; [eauto|]. apply flush_rbuf in E.
      unfold buffered. rewrite E. exact HB.
    - intros ? ? ? [] ?. eauto.
    - intros now o c1 tr1 w1 [HP [Hb Hl]] Hw Hs Hal Ho Hlen Hroom. split; [apply P_read; auto; now split|].
      unfold TEMP_READ_BUFFER_SIZE, MAX_READ_BUFFER_SIZE in *.
      split; cbn [c_rbuf]; [now apply all_bytes_app|]. rewrite lenZ_app. unfold MAX_READ_BUFFER_SIZE. lia.
    - intros now e c1 tr1 w1 [HP HB] Hw Hs Hal. split; [eapply P_read_error; eauto|]. now destruct e.
    - intros ? ? ? ? ? ? [HP HB] Hw Hs E. split; [eauto|]. eapply dispatch_buffered; eauto.
    - intros ? ? ? ? ? ? ? [HP HB] Hw Hs E. split; [eauto|]. eapply dispatch_buffered; eauto.
    - intros ? ? ? ? ? ? [HP HB] Hw Hs E. split; [eauto|].
      apply (dispatch_buffered _ _ _ _ _ _ HB Hs) in E. exact E.
    - intros ? ? ? ? [HQ HB] Hr. split; eauto.
  Qed.
End Buffered.
