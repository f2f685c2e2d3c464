(** Tracing: the messages of passages, a proof rule, and what it gives. *)
From Verif Require Import Base BaseLemmas StaticTable IntCodec Huffman DynTable HpackDec HpackEnc HpackEncProofs Frames FramesProofs Http Conn SpecFrames SpecConn ConnLemmas ConnRule ConnBasic ConnTerm
  ConnSpec AccessLog Messages SpecMessages MessagesProofs MessagesRule Spans SpecSpans.

Lemma passage_messages_app a b : passage_messages (a ++ b) = passage_messages a ++ passage_messages b.
Proof. apply flat_map_app. Qed.
Lemma passage_spans_app a b : passage_spans (a ++ b) = passage_spans a ++ passage_spans b.
Proof. apply flat_map_app. Qed.
Lemma outside_messages ms : passage_messages (map Outside ms) = ms.
Proof. induction ms as [|m ms IH]; [reflexivity|]. cbn. f_equal. exact IH. Qed.
Lemma outside_spans ms : passage_spans (map Outside ms) = [].
Proof. induction ms; auto. Qed.

Section Rule.
  Variable W : Type.
  Variable app : request -> W -> W * app_answer.
  Variable cs : bool.
  Variable T : tree.
  Variable app_says : request -> W -> list message.
  Variable thrown : request -> W -> bytes.
  Variable unhandled : conn -> W -> bytes.
  Variable ip : bytes.
  Variable others : W -> W -> Prop.
  Variable t0 : Z.
  Variable w0 : W.
  Variable A : scripts -> Prop.
  Variable P : conn -> trace -> list passage -> Prop.
  Variable Q : result -> conn -> trace -> list passage -> Prop.
  Notation dispatch := (Conn.dispatch W app cs T).
  Notation dispatch_passages := (dispatch_passages W app cs T app_says thrown ip).
  Notation traced := (traced W app cs T app_says thrown unhandled ip others t0 w0 A).

  Hypothesis P_start : P (fresh_conn t0) [] [].
  Hypothesis P_hs : forall now c tr ps, P c tr ps -> c_state c = AwaitingHandshake ->
    P (Conn AwaitingPreface (c_rbuf c) (c_wbuf c) (c_dec c) (c_enc c) now) (tr ++ [EvHandshake now]) ps.
  Hypothesis Q_hs : forall c tr ps, P c tr ps -> c_state c = AwaitingHandshake -> Q WantRead c tr ps.
  Hypothesis Q_hs_error : forall e c tr ps, P c tr ps -> c_state c = AwaitingHandshake -> e <> WantReadOrWrite ->
    Q DiscardConnection c (tr ++ [EvHandshakeError e]) ps.
  Hypothesis P_flush : forall wr c tr ps c' ev wr', P c tr ps -> c_state c <> AwaitingHandshake ->
    flush_write_buffer wr c = (c', ev, wr') -> P c' (tr ++ ev) (ps ++ map Outside (flush_messages wr c)).
  Hypothesis Q_blocked : forall c tr ps, P c tr ps -> Q WantWrite c tr ps.
  Hypothesis P_read : forall now o c tr ps, P c tr ps -> c_state c <> AwaitingHandshake ->
    P (Conn (c_state c) (c_rbuf c ++ o) (c_wbuf c) (c_dec c) (c_enc c) now) (tr ++ [EvRead now o]) ps.
  Hypothesis P_read_error : forall e c tr ps, P c tr ps -> c_state c <> AwaitingHandshake ->
    P (match e with
       | ConnectionClosed => set_state ClientClosed c
       | TransportProtocolError => set_state StProtocolError c
       | _ => c
       end) (tr ++ [EvReadError e]) (ps ++ map Outside (read_error_messages e)).
  Hypothesis P_go : forall c tr ps w c' ev w', P c tr ps -> all_bytes (c_rbuf c) -> c_state c <> AwaitingHandshake ->
    dispatch c w = Ret (Continue, c', ev, w') -> P c' (tr ++ ev) (ps ++ dispatch_passages c w).
  Hypothesis Q_return : forall c tr ps w r c' ev w', P c tr ps -> all_bytes (c_rbuf c) -> c_state c <> AwaitingHandshake ->
    dispatch c w = Ret (Return r, c', ev, w') -> Q r c' (tr ++ ev) (ps ++ dispatch_passages c w).
  Hypothesis Q_exception : forall c tr ps w c' ev w', P c tr ps -> all_bytes (c_rbuf c) -> c_state c <> AwaitingHandshake ->
    dispatch c w = Ret (Exception, c', ev, w') ->
    Q DiscardConnection (set_state StProtocolError c') (tr ++ ev) (ps ++ dispatch_passages c w ++ [Outside (err (str "unhandled error processing connection: " ++ unhandled c w))]).
  Hypothesis Q_back : forall r c tr ps, Q r c tr ps -> r <> DiscardConnection -> P c tr ps.

  Lemma fill_rule rd : forall c tr ps c' ev rd', P c tr ps -> c_state c <> AwaitingHandshake ->
    fill_read_buffer rd c = (c', ev, rd') -> P c' (tr ++ ev) (ps ++ map Outside (fill_messages rd c)).
  Proof.
    induction rd as [|[now [o|e]] rd IH]; intros c tr ps c' ev rd' HP Hs E; cbn [fill_read_buffer fill_messages map] in *.
    - destruct (_ >=? _); injection E as <- <- <-; now rewrite !app_nil_r.
    - destruct (_ >=? _); [injection E as <- <- <-; now rewrite !app_nil_r|].
      destruct (fill_read_buffer rd _) as [[c2 ev2] rd2] eqn:E2. injection E as <- <- <-.
      replace (tr ++ EvRead now o :: ev2) with ((tr ++ [EvRead now o]) ++ ev2) by now rewrite <- app_assoc.
      eapply IH; [| |exact E2]; auto.
    - destruct (_ >=? _); [injection E as <- <- <-; now rewrite !app_nil_r|]. injection E as <- <- <-. now apply (P_read_error e).
  Qed.
  Lemma traced_loop fuel : forall s c tr ps w v c' ev w', P c tr ps -> all_bytes (c_rbuf c) -> Forall rd_ok (sc_rd s) ->
    internal_process W app cs T fuel s c w = Ret (v, c', ev, w') ->
    all_bytes (c_rbuf c') /\
    match v with
    | Continue => False
    | Return r => Q r c' (tr ++ ev) (ps ++ internal_passages W app cs T app_says thrown unhandled ip fuel s c w)
    | Exception => Q DiscardConnection (set_state StProtocolError c') (tr ++ ev) (ps ++ internal_passages W app cs T app_says thrown unhandled ip fuel s c w)
    end.
  Proof.
    induction fuel as [|fuel IH]; intros s c tr ps w v c' ev w' HP Hb Hok E; [easy|].
    cbn [internal_process internal_passages] in *.
    set (H0 := match c_state c with AwaitingHandshake => handle_handshake (sc_hs s) c | _ => _ end) in *.
    assert (HH : (exists r ev0, H0 = (Some r, c, ev0, tl (sc_hs s)) /\ Q r c (tr ++ ev0) ps) \/
                 (exists c0 ev0 hs, H0 = (None, c0, ev0, hs) /\ P c0 (tr ++ ev0) ps /\ c_state c0 <> AwaitingHandshake /\ c_rbuf c0 = c_rbuf c)).
    { subst H0. destruct (c_state c) eqn:Es;
        try (right; exists c, [], (sc_hs s); rewrite app_nil_r; repeat split; auto; congruence).
      unfold handle_handshake. destruct (sc_hs s) as [|[now [|e]] hs'] eqn:Eh.
      - left. exists WantRead, []. rewrite app_nil_r. auto.
      - right. eexists _, _, _. repeat split; auto. cbn. easy.
      - left. destruct e; (eexists _, _; split; [reflexivity|]); try (now apply Q_hs_error).
        rewrite app_nil_r. auto. }
    destruct HH as [(r & ev0 & -> & HQ)|(c0 & ev0 & hs' & -> & HP0 & Hs0 & Hb0)].
    { injection E as <- <- <- <-. now rewrite app_nil_r. }
    destruct (flush_write_buffer (sc_wr s) c0) as [[c1 ev1] wr'] eqn:E1.
    assert (HP1 := P_flush _ _ _ _ _ _ _ HP0 Hs0 E1).
    assert (Hs1 : c_state c1 <> AwaitingHandshake) by eauto using flush_state.
    assert (Hb1 : all_bytes (c_rbuf c1)) by (rewrite (flush_rbuf _ _ _ _ _ E1), Hb0; auto).
    destruct (c_wbuf c1) as [|x xs] eqn:Ew.
    2: { injection E as <- <- <- <-. split; auto. rewrite (app_nil_r (map Outside _)), app_assoc. auto. }
    destruct (fill_read_buffer (sc_rd s) c1) as [[c2 ev2] rd'] eqn:E2.
    assert (HP2 := fill_rule _ _ _ _ _ _ _ HP1 Hs1 E2).
    destruct (fill_state _ _ _ _ _ E2) as [_ Hs2]. specialize (Hs2 Hs1).
    assert (Hb2 := fill_bytes _ _ _ _ _ Hb1 Hok E2).
    destruct (dispatch c2 w) as [[[[v3 c3] ev3] w3]| | |] eqn:E3; try easy. cbn [obind] in E.
    assert (Hb3 := dispatch_bytes _ _ _ _ _ _ _ _ _ _ Hb2 Hs2 E3).
    destruct v3 as [|r3|].
    - destruct (internal_process W app cs T fuel _ c3 w3) as [[[[v4 c4] ev4] w4]| | |] eqn:E4; try easy.
      cbn [obind] in E. injection E as <- <- <- <-.
      assert (HP3 := P_go _ _ _ _ _ _ _ HP2 Hb2 Hs2 E3).
      eapply IH in E4; [|exact HP3|exact Hb3|cbn [sc_rd]; eapply fill_rest; eauto]. rewrite <- !app_assoc in E4. exact E4.
    - injection E as <- <- <- <-. split; auto.
      assert (HQ := Q_return _ _ _ _ _ _ _ _ HP2 Hb2 Hs2 E3). rewrite <- !app_assoc in HQ. now rewrite (app_nil_r (dispatch_passages _ _)).
    - injection E as <- <- <- <-. split; auto.
      assert (HQ := Q_exception _ _ _ _ _ _ _ HP2 Hb2 Hs2 E3). now rewrite <- !app_assoc in HQ.
  Qed.

  Lemma traced_rule r c tr w ps : traced r c tr w ps ->
    all_bytes (c_rbuf c) /\ match r with None => P c tr ps | Some r => Q r c tr ps end.
  Proof.
    induction 1 as [|r c tr w w' ps _ IH Ho|r c tr w s r' c' ev w' ps _ [Hb IH] Hr Hok _ E].
    - split; [constructor|exact P_start].
    - exact IH.
    - assert (HP : P c tr ps) by (destruct r as [r|]; auto; eapply Q_back; [exact IH|congruence]).
      unfold process in E. destruct (internal_process _ _ _ _ _ _ _ _) as [[[[v c1] ev1] w1]| | |] eqn:E1; try easy. cbn [obind] in E.
      eapply traced_loop in E1; [|exact HP|exact Hb|exact Hok]. destruct E1 as [Hb1 HQ].
      destruct v; [easy| |]; injection E as <- <- <- <-; split; auto.
  Qed.
End Rule.


(** ** The messages of passages are those of Messages.v *)
Section Bridge.
  Variable W : Type.
  Variable app : request -> W -> W * app_answer.
  Variable cs : bool.
  Variable T : tree.
  Variable app_says : request -> W -> list message.
  Variable thrown : request -> W -> bytes.
  Variable unhandled : conn -> W -> bytes.
  Variable ip : bytes.

  Lemma frame_passages_messages f d e w :
    passage_messages (frame_passages W app cs T app_says thrown ip f d e w) = frame_messages W app cs T app_says thrown f d e w.
  Proof. unfold frame_passages. cbv zeta. destruct (_ =? _); [apply app_nil_r|apply outside_messages]. Qed.
  Lemma try_passages_messages c w :
    passage_messages (try_read_passages W app cs T app_says thrown ip c w) = try_read_messages W app cs T app_says thrown c w.
  Proof.
    unfold try_read_passages, try_read_messages. destruct (_ <? 9); [reflexivity|]. destruct (fh_parse _) as [h| | |]; try reflexivity.
    destruct (_ >? _); cbn [orb]; [apply outside_messages|]. destruct (_ <? _); [reflexivity|]. apply frame_passages_messages.
  Qed.
  Lemma dispatch_passages_messages c w :
    passage_messages (dispatch_passages W app cs T app_says thrown ip c w) = dispatch_messages W app cs T app_says thrown c w.
  Proof.
    unfold dispatch_passages. destruct (c_state c) eqn:Es; try apply outside_messages; unfold dispatch_messages; rewrite Es.
    - rewrite passage_messages_app, outside_messages. f_equal. destruct (read_preface c) as [[[] c'] ?]; try reflexivity. apply try_passages_messages.
    - apply try_passages_messages.
  Qed.
  Lemma internal_passages_messages fuel : forall s c w,
    passage_messages (internal_passages W app cs T app_says thrown unhandled ip fuel s c w) = internal_messages W app cs T app_says thrown unhandled fuel s c w.
  Proof.
    induction fuel as [|fuel IH]; intros s c w; [reflexivity|]. cbn [internal_passages internal_messages].
    destruct (match c_state c with AwaitingHandshake => _ | _ => _ end) as [[[[r|] c0] ev] hs]; [reflexivity|].
    destruct (flush_write_buffer _ _) as [[c1 ev1] wr]. rewrite passage_messages_app, outside_messages. f_equal.
    destruct (c_wbuf c1); [|reflexivity]. destruct (fill_read_buffer _ _) as [[c2 ev2] rd].
    rewrite !passage_messages_app, outside_messages, dispatch_passages_messages. do 2 f_equal.
    destruct (Conn.dispatch W app cs T c2 w) as [[[[[] c3] ev3] w3]| | |]; try reflexivity. apply IH.
  Qed.
  Lemma traced_narrated others t0 w0 A r c tr w ps : traced W app cs T app_says thrown unhandled ip others t0 w0 A r c tr w ps ->
    narrated W app cs T app_says thrown unhandled others t0 w0 A r c tr w (passage_messages ps).
  Proof.
    induction 1 as [|r c tr w w' ps _ IH Ho|r c tr w s r' c' ev w' ps _ IH Hr Hok HA E]; [constructor|econstructor; eauto|].
    rewrite passage_messages_app. unfold process_passages. rewrite internal_passages_messages. now apply narrated_process with r.
  Qed.
  Lemma narrated_traced others t0 w0 A r c tr w ms : narrated W app cs T app_says thrown unhandled others t0 w0 A r c tr w ms ->
    exists ps, traced W app cs T app_says thrown unhandled ip others t0 w0 A r c tr w ps /\ passage_messages ps = ms.
  Proof.
    induction 1 as [|r c tr w w' ms _ (ps & H & <-) Ho|r c tr w s r' c' ev w' ms _ (ps & H & <-) Hr Hok HA E].
    - exists []. split; [constructor|reflexivity].
    - exists ps. split; [econstructor; eauto|reflexivity].
    - eexists. split; [eapply traced_process; eauto|]. rewrite passage_messages_app. f_equal. unfold process_passages. apply internal_passages_messages.
  Qed.
  Lemma session_narrated others t0 w0 A r c tr w : session W app cs T others t0 w0 A r c tr w ->
    exists ms, narrated W app cs T app_says thrown unhandled others t0 w0 A r c tr w ms.
  Proof.
    induction 1 as [|r c tr w w' _ [ms H] Ho|r c tr w s r' c' ev w' _ [ms H] Hr Hok HA E].
    - exists []. constructor.
    - exists ms. econstructor; eauto.
    - eexists. eapply narrated_process; eauto.
  Qed.
  Lemma narrated_session others t0 w0 A r c tr w ms :
    narrated W app cs T app_says thrown unhandled others t0 w0 A r c tr w ms -> session W app cs T others t0 w0 A r c tr w.
  Proof. induction 1; [constructor|econstructor; eauto|eapply session_process; eauto]. Qed.
End Bridge.

(** ** Spans and events *)
Lemma accounts_nil ip : accounts ip [] [].
Proof. exists []. split; constructor. Qed.
Lemma accounts_app ip a b x y : accounts ip a x -> accounts ip b y -> accounts ip (a ++ b) (x ++ y).
Proof. intros (sa & H1 & ->) (sb & H2 & ->). exists (sa ++ sb). split; [now apply Forall2_app|now rewrite concat_app]. Qed.
Definition unremarkable (e : event) : Prop := ~ incomplete_request e /\ forall rq a, e <> EvRequest rq a.
Lemma accounts_none ip ev : Forall unremarkable ev -> accounts ip ev [].
Proof.
  induction 1 as [|e ev [H1 H2] _ (sss & IH & E)]; [apply accounts_nil|]. exists ([] :: sss). split; [|exact E]. constructor; auto. now apply covers_other.
Qed.
Lemma accounts_more ip tr ev x : accounts ip tr x -> Forall unremarkable ev -> accounts ip (tr ++ ev) x.
Proof. intros H K. rewrite <- (app_nil_r x). apply accounts_app; auto. now apply accounts_none. Qed.
Lemma accounts_one ip e s : covers ip e s -> accounts ip [e] s.
Proof. intros H. exists [s]. split; [repeat constructor; auto|]. cbn. now rewrite app_nil_r. Qed.
Lemma incomplete_log hs st sz : incomplete_request (EvLog hs st sz) -> get_header hs (str ":path") = None \/ get_header hs (str ":method") = None.
Proof.
  assert (K : forall n, no_field hs n -> get_header hs n = None).
  { intros n H. unfold get_header. destruct (find _ hs) as [h|] eqn:E; [|reflexivity]. apply find_some in E as [Hi E].
    unfold no_field in H. rewrite Forall_forall in H. apply bytes_eqb_eq in E. now apply H in Hi. }
  intros [H|H]; [left|right]; now apply K.
Qed.
Ltac unremarkable := repeat constructor; try discriminate; try (intros []; fail).

Section Spans.
  Variable W : Type.
  Variable app : request -> W -> W * app_answer.
  Variable cs : bool.
  Variable T : tree.
  Variable app_says : request -> W -> list message.
  Variable thrown : request -> W -> bytes.
  Variable unhandled : conn -> W -> bytes.
  Variable ip : bytes.
  Notation frame_passages := (frame_passages W app cs T app_says thrown ip).
  Notation try_read_passages := (try_read_passages W app cs T app_says thrown ip).
  Notation dispatch_passages := (dispatch_passages W app cs T app_says thrown ip).

  Lemma try_passages_outside c w : incomplete (c_rbuf c) \/ oversized (c_rbuf c) ->
    try_read_passages c w = map Outside (try_read_messages W app cs T app_says thrown c w).
  Proof.
    intros H. unfold Spans.try_read_passages. destruct (lenZ (c_rbuf c) <? 9) eqn:E9.
    { unfold try_read_messages. now rewrite E9. }
    destruct H as [[H|(h & E & Hm & Hl)]|(H9 & h & E & Hm)]; [lia| |]; rewrite E.
    - replace (lenZ (c_rbuf c) <? 9 + fh_length h) with true by lia. now rewrite orb_true_r.
    - now replace (fh_length h >? MAX_FRAME_SIZE) with true by lia.
  Qed.
  Lemma try_passages_chunk c w o f rest : c_rbuf c = o ++ rest -> chunk o f ->
    try_read_passages c w = frame_passages f (c_dec c) (c_enc c) w.
  Proof.
    unfold Spans.try_read_passages. intros -> (H9 & _ & Eh & Ep & El & Hm). rewrite lenZ_app. pose proof (lenZ_nonneg rest).
    replace (lenZ o + lenZ rest <? 9) with false by lia. rewrite firstn_app_long by (unfold lenZ in *; lia). rewrite Eh.
    replace (fh_length (f_header f) >? MAX_FRAME_SIZE) with false by lia.
    replace (lenZ o + lenZ rest <? 9 + fh_length (f_header f)) with false by lia. cbn [orb].
    f_equal. destruct f as [h p]. cbn [f_header f_payload] in *. f_equal. subst p. unfold lenZ in *.
    rewrite skipn_app, firstn_app, skipn_length. rewrite (firstn_all2 (skipn 9 o)) by (rewrite skipn_length; lia).
    replace (Z.to_nat (fh_length h) - (length o - 9))%nat with O by lia. now rewrite app_nil_r.
  Qed.

  (** A frame: no span and no request; one blank span, and the connection ends; or one span
      that its events account for. *)
  Lemma frame_spans f d e w fe d' e' w' ev : process_frame W app cs T f d e w = Ret (fe, d', e', w', ev) ->
    accounts ip ev (passage_spans (frame_passages f d e w)) \/
    passage_spans (frame_passages f d e w) = [blank] /\ accounts ip ev [] /\ (fe = FrameState StProtocolError \/ fe = FrameThrows).
  Proof.
    intros E. apply process_frame_inv in E. unfold Spans.frame_passages. cbv zeta. unfold FRAME_TYPE_HEADERS.
    assert (N : forall ms, f_type f <> 1 -> Forall unremarkable ev ->
       accounts ip ev (passage_spans (if f_type f =? 1 then ms else map Outside (frame_messages W app cs T app_says thrown f d e w)))).
    { intros ms H Hev. replace (f_type f =? 1) with false by lia. rewrite outside_spans. now apply accounts_none. }
    destruct E as [(E4 & Ef & -> & _ & _ & _ & ->)|[(E4 & Ef & -> & _ & _ & _ & -> & E6)|[(E4 & Ef & -> & _ & _ & _ & -> & E6)|
      [(E8 & -> & _ & _ & _ & -> & _)|[(E7 & -> & _ & _ & _ & ->)|[(N1 & N4 & N7 & N8 & -> & _ & _ & _ & ->)|(E1 & block & Eb & E)]]]]]];
      try (left; apply N; [lia|unremarkable]).
    rewrite E1, Eb. cbn [Z.eqb Pos.eqb]. cbn [passage_spans flat_map List.app].
    destruct E as [(Ed & -> & _ & _ & _ & ->)|[(er & Ed & -> & _ & _ & ->)|(hdrs & resp & evr & Ed & Er & E)]]; rewrite Ed.
    - right. repeat split; auto. apply accounts_nil.
    - right. repeat split; auto. apply accounts_nil.
    - assert (Hr : (exists rq a, evr = [EvRequest rq a] /\ rq_headers rq = hdrs /\ get_header hdrs (str ":path") = Some (rq_path rq) /\
                      get_header hdrs (str ":method") = Some (rq_method rq) /\
                      describes ip rq a (Span (str "http_request") (request_attributes W app ip hdrs w))) \/
                   (evr = [] /\ request_attributes W app ip hdrs w = [] /\
                    (get_header hdrs (str ":path") = None \/ get_header hdrs (str ":method") = None))).
      { unfold request_attributes. apply process_request_inv in Er.
        destruct Er as [(Hn & _ & _ & ->)|(p & m & a & Ep & Em & Ea & [(-> & _ & ->)|(r & Hr & _ & ->)])].
        - right. repeat split; auto. destruct Hn as [-> | ->]; [reflexivity|]. now destruct (get_header hdrs (str ":path")).
        - left. eexists _, _. repeat split; auto. rewrite Ep, Em, Ea. constructor.
        - left. eexists _, _. repeat split; auto. rewrite Ep, Em, Ea. destruct Hr as [->|[-> ->]]; constructor. }
      destruct Hr as [(rq & a & -> & <- & Hp & Hm & Hd)|(-> & Ha & Hn)].
      + left. change ([?s]) with ([s] ++ []).
        destruct E as [(_ & _ & _ & ->)|(rs & _ & [(_ & _ & _ & ->)|(b & data & _ & _ & _ & ->)])];
          [rewrite app_nil_r; apply accounts_one; now constructor|rewrite app_nil_r; apply accounts_one; now constructor|].
        apply accounts_app; [apply accounts_one; now constructor|]. apply accounts_none.
        repeat (constructor; [split; [|discriminate]|]); [intros []|intros []| |constructor].
        intros H. apply incomplete_log in H. destruct H; congruence.
      + rewrite Ha. destruct E as [(_ & -> & _ & ->)|(rs & _ & [(_ & -> & _ & ->)|(b & data & _ & _ & _ & ->)])].
        * right. repeat split; auto. apply accounts_nil.
        * right. repeat split; auto. apply accounts_nil.
        * left. cbn [List.app]. change ([?a; ?b; ?c]) with ([a; b] ++ [c]). change ([?s]) with ([] ++ [s]). apply accounts_app.
          -- apply accounts_none. unremarkable.
          -- apply accounts_one. apply covers_incomplete. cbn. destruct Hn as [Hn|Hn]; [left|right]; now apply get_header_none.
  Qed.
  Lemma try_spans c w v c' ev w' : all_bytes (c_rbuf c) -> try_read_frame W app cs T c w = Ret (v, c', ev, w') ->
    accounts ip ev (passage_spans (try_read_passages c w)) \/
    passage_spans (try_read_passages c w) = [blank] /\ accounts ip ev [] /\ (v = Exception \/ v = Continue /\ giving_up c').
  Proof.
    intros Hb E. apply try_read_frame_inv in E; auto. destruct E as [(_ & _ & -> & _ & Hi)|[(-> & -> & -> & _ & Ho)|(o & rest & f & fe & d & e & Er & Hc & Hp & Hfe)]].
    - rewrite try_passages_outside, outside_spans; auto. left. apply accounts_nil.
    - rewrite try_passages_outside, outside_spans; auto. left. apply accounts_nil.
    - erewrite try_passages_chunk by eauto. destruct (frame_spans _ _ _ _ _ _ _ _ _ Hp) as [H|(H1 & H2 & H3)]; [auto|].
      right. repeat split; auto. destruct H3 as [-> | ->]; destruct Hfe as [-> ->]; auto. right. split; auto. now left.
  Qed.
  Lemma dispatch_spans c w v c' ev w' : all_bytes (c_rbuf c) -> c_state c <> AwaitingHandshake -> Conn.dispatch W app cs T c w = Ret (v, c', ev, w') ->
    (giving_up c -> v = Return DiscardConnection) /\
    ((accounts ip ev (passage_spans (dispatch_passages c w)) /\ (giving_up c -> passage_spans (dispatch_passages c w) = [] /\ Forall unremarkable ev)) \/
     passage_spans (dispatch_passages c w) = [blank] /\ accounts ip ev [] /\ ~ giving_up c /\ (v = Exception \/ v = Continue /\ giving_up c')).
  Proof.
    intros Hb Hs E. split.
    { intros K. eapply (dispatch_cause W app cs T app_says thrown) in E; eauto. now apply E. }
    unfold Spans.dispatch_passages. apply dispatch_inv in E; auto.
    destruct E as [(Es & H24 & -> & -> & -> & _)|[(Es & H24 & Hne & -> & -> & -> & _)|[(rest & ev2 & Es & Er & -> & E)|
      [(Es & E)|[(Es & -> & -> & -> & _)|[(Es & -> & -> & -> & _)|(Es & -> & -> & -> & _)]]]]]]; unfold giving_up; rewrite Es.
    - unfold read_preface. change (lenZ CLIENT_PREFACE) with 24. replace (lenZ (c_rbuf c) <? 24) with true by lia.
      rewrite app_nil_r, outside_spans. left. split; [apply accounts_nil|]. intros []; discriminate.
    - unfold read_preface. change (lenZ CLIENT_PREFACE) with 24. replace (lenZ (c_rbuf c) <? 24) with false by lia.
      change (length CLIENT_PREFACE) with 24%nat. destruct (bytes_eqb _ _) eqn:Eb; [now apply bytes_eqb_eq in Eb|].
      rewrite app_nil_r, outside_spans. left. split; [apply accounts_nil|]. intros []; discriminate.
    - rewrite (preface_success _ _ Es Er), passage_spans_app, outside_spans. cbn [List.app].
      assert (Hb' : all_bytes rest) by (rewrite Er in Hb; now apply all_bytes_app in Hb as [_ Hb]).
      assert (U : accounts ip [EvQueue write_settings] []) by (apply accounts_none; unremarkable).
      apply try_spans in E; [|exact Hb']. destruct E as [E|(E1 & E2 & E3)]; [left|right].
      + split; [|intros []; discriminate]. change (EvQueue write_settings :: ev2) with ([EvQueue write_settings] ++ ev2). now apply (accounts_app _ _ _ []).
      + split; [exact E1|]. split; [now apply (accounts_app _ [_] _ [] [])|]. split; [intros []; discriminate|exact E3].
    - apply try_spans in E; auto. destruct E as [E|(E1 & E2 & E3)]; [left|right].
      + split; [exact E|]. intros []; discriminate.
      + repeat split; auto. intros []; discriminate.
    - rewrite outside_spans. left. split; [apply accounts_none; unremarkable|]. intros []; discriminate.
    - rewrite outside_spans. left. split; [apply accounts_none; unremarkable|]. split; [reflexivity|unremarkable].
    - rewrite outside_spans. left. split; [apply accounts_nil|]. split; [reflexivity|unremarkable].
  Qed.

  Definition booked (over : Prop) (tr : trace) (spans : list span) : Prop :=
    accounts ip tr spans \/ over /\ exists l, spans = l ++ [blank] /\ accounts ip tr l.
  Lemma booked_more (over over' : Prop) tr spans ev : booked over tr spans -> Forall unremarkable ev -> (over -> over') -> booked over' (tr ++ ev) spans.
  Proof.
    intros [H|(O & l & -> & H)] Hev Ho; [left; now apply accounts_more|right]. split; auto. exists l. split; auto. now apply accounts_more.
  Qed.
  Lemma booked_same (over over' : Prop) tr spans : booked over tr spans -> (over -> over') -> booked over' tr spans.
  Proof. intros H Ho. rewrite <- (app_nil_r tr). eapply booked_more; eauto. Qed.
  Lemma dispatch_booked c tr w v c' ev w' spans : all_bytes (c_rbuf c) -> c_state c <> AwaitingHandshake -> Conn.dispatch W app cs T c w = Ret (v, c', ev, w') ->
    booked (giving_up c) tr spans ->
    booked (v = Exception \/ v = Return DiscardConnection \/ v = Continue /\ giving_up c') (tr ++ ev) (spans ++ passage_spans (dispatch_passages c w)).
  Proof.
    intros Hb Hs E H. destruct (dispatch_spans _ _ _ _ _ _ Hb Hs E) as [D1 D2].
    destruct H as [H|(G & l & -> & H)].
    - destruct D2 as [[D2 _]|(-> & D3 & _ & D4)].
      + left. now apply accounts_app.
      + right. split; [tauto|]. exists spans. split; [reflexivity|]. rewrite <- (app_nil_r spans). now apply accounts_app.
    - specialize (D1 G). destruct D2 as [[_ D2]|(_ & _ & D3 & _)]; [|easy]. destruct (D2 G) as [-> D3]. rewrite app_nil_r.
      right. split; [tauto|]. exists l. split; auto. now apply accounts_more.
  Qed.

  Lemma traced_none others t0 w0 A r c tr w ps : traced W app cs T app_says thrown unhandled ip others t0 w0 A r c tr w ps -> r = None -> c = fresh_conn t0.
  Proof. induction 1; auto. discriminate. Qed.
  Lemma traced_spans others t0 w0 A r c tr w ps : traced W app cs T app_says thrown unhandled ip others t0 w0 A r c tr w ps ->
    booked (r = Some WantWrite \/ r = Some DiscardConnection) tr (passage_spans ps).
  Proof.
    intros H. pose proof H as T0. apply traced_rule with (P := fun c tr ps => booked (giving_up c) tr (passage_spans ps))
      (Q := fun r c tr ps => booked (match r with WantRead => False | WantWrite => giving_up c | DiscardConnection => True end) tr (passage_spans ps)) in H.
    - destruct H as [_ H]. destruct r as [r|].
      + eapply booked_same; [exact H|]. destruct r; tauto.
      + apply traced_none in T0; auto. eapply booked_same; [exact H|]. rewrite T0. intros [K|K]; discriminate.
    - left. apply accounts_nil.
    - intros now c0 tr0 ps0 HP Es. eapply booked_more; [exact HP|unremarkable|]. intros [K|K]; congruence.
    - intros c0 tr0 ps0 HP Es. eapply booked_same; [exact HP|]. intros [K|K]; congruence.
    - intros e c0 tr0 ps0 HP Es _. eapply booked_more; [exact HP|unremarkable|]. auto.
    - intros wr c0 tr0 ps0 c' ev wr' HP Hs E. rewrite passage_spans_app, outside_spans, app_nil_r.
      unfold flush_write_buffer in E. destruct (c_wbuf c0).
      { injection E as <- <- _. eapply booked_more; [exact HP|unremarkable|auto]. }
      destruct wr as [|[now [n|k|e]] wr]; try destruct e; injection E as <- <- _; (eapply booked_more; [exact HP|unremarkable|]); auto; intros _; now left.
    - intros c0 tr0 ps0 HP. exact HP.
    - intros now o c0 tr0 ps0 HP Hs. eapply booked_more; [exact HP|unremarkable|auto].
    - intros e c0 tr0 ps0 HP Hs. rewrite passage_spans_app, outside_spans, app_nil_r. eapply booked_more; [exact HP|unremarkable|].
      destruct e; auto; intros _; [now right|now left].
    - intros c0 tr0 ps0 w1 c' ev w' HP Hb Hs E. rewrite passage_spans_app. eapply booked_same; [eapply dispatch_booked; eauto|].
      intros [K|[K|[_ K]]]; try discriminate. exact K.
    - intros c0 tr0 ps0 w1 r0 c' ev w' HP Hb Hs E. rewrite passage_spans_app. eapply booked_same; [eapply dispatch_booked; eauto|].
      intros [K|[K|[K _]]]; try discriminate. injection K as ->. exact I.
    - intros c0 tr0 ps0 w1 c' ev w' HP Hb Hs E. rewrite !passage_spans_app. cbn [passage_spans flat_map]. rewrite app_nil_r.
      eapply booked_same; [eapply dispatch_booked; eauto|]. auto.
    - intros r0 c0 tr0 ps0 HQ Hr. eapply booked_same; [exact HQ|]. destruct r0; tauto.
  Qed.
End Spans.

(** ** Spans and messages *)
Section Texts.
  Variable W : Type.
  Variable app : request -> W -> W * app_answer.
  Variable cs : bool.
  Variable T : tree.
  Variable app_says : request -> W -> list message.
  Variable thrown : request -> W -> bytes.
  Variable unhandled : conn -> W -> bytes.
  Variable ip : bytes.
  Hypothesis Happ : forall rq w w' r, app rq w = (w', Answers r) -> 0 <= rs_status r.
  Notation frame_passages := (frame_passages W app cs T app_says thrown ip).
  Notation try_read_passages := (try_read_passages W app cs T app_says thrown ip).
  Notation dispatch_passages := (dispatch_passages W app cs T app_says thrown ip).
  Definition texts (t : bytes) : Prop := exists c w, t = unhandled c w.

  Definition fitting (tr : trace) (p : passage) : Prop :=
    match p with
    | Outside m => general texts m
    | Inside s ms =>
      (exists rq a, In (EvRequest rq a) tr /\ describes ip rq a s /\ about app app_says thrown rq a ms) \/
      (s = blank /\ (ms = [Msg LErr (str "invalid request: missing path or method"); Msg LInfo (str "400 status code sent w/headers")] \/
                     Forall (fun m => m_level m = LErr) ms))
    end.
  Lemma fitting_more tr ev ps : Forall (fitting tr) ps -> Forall (fitting (tr ++ ev)) ps.
  Proof.
    apply Forall_impl. intros [m|s ms]; [auto|]. intros [(rq & a & H & K)|H]; [left|right; auto]. exists rq, a. split; auto. apply in_app_iff. auto.
  Qed.
  Lemma fitting_later tr ev ps : Forall (fitting ev) ps -> Forall (fitting (tr ++ ev)) ps.
  Proof.
    apply Forall_impl. intros [m|s ms]; [auto|]. intros [(rq & a & H & K)|H]; [left|right; auto]. exists rq, a. split; auto. apply in_app_iff. auto.
  Qed.
  Lemma fitting_outside tr ms : Forall (general texts) ms -> Forall (fitting tr) (map Outside ms).
  Proof. induction 1; constructor; auto. Qed.

  Lemma general_flush wr c : Forall (general texts) (flush_messages wr c).
  Proof.
    unfold flush_messages. destruct (c_wbuf c); [constructor|]. destruct wr as [|[now [n|k|e]] wr]; [constructor|constructor| |].
    - constructor; [|constructor]. do 8 right; left. reflexivity.
    - destruct e; [constructor|..]; (constructor; [|constructor]); [do 8 right; left|do 9 right; left|do 10 right; left|do 11 right; left]; reflexivity.
  Qed.
  Lemma general_read e : Forall (general texts) (read_error_messages e).
  Proof. destruct e; try (constructor; fail); (constructor; [|constructor]); [do 6 right; left|do 5 right; left|do 7 right; left]; reflexivity. Qed.
  Lemma oversized_warning c w : all_bytes (c_rbuf c) -> oversized (c_rbuf c) -> Forall (general texts) (try_read_messages W app cs T app_says thrown c w).
  Proof.
    intros Hb (H9 & h & E & Hm). unfold try_read_messages. replace (lenZ (c_rbuf c) <? 9) with false by lia. rewrite E.
    replace (fh_length h >? MAX_FRAME_SIZE) with true by lia. constructor; [|constructor]. do 2 right; left.
    exists (fh_length h). split; [exact Hm|]. exists (to_string (fh_length h)). assert (0 <= fh_length h) by (unfold MAX_FRAME_SIZE in *; lia).
    split; [now apply to_string_spec|]. reflexivity.
  Qed.

  Lemma frame_fitting f d e w fe d' e' w' ev : process_frame W app cs T f d e w = Ret (fe, d', e', w', ev) -> Forall (fitting ev) (frame_passages f d e w).
  Proof.
    intros E. apply process_frame_inv in E. unfold Spans.frame_passages. cbv zeta. unfold FRAME_TYPE_HEADERS.
    assert (FM : forall a b, (if f_type f =? FRAME_TYPE_SETTINGS then a else b) = (if f_type f =? 4 then a else b : list message)) by reflexivity.
    assert (FH : forall a b, (if f_type f =? FRAME_TYPE_HEADERS then a else b) = (if f_type f =? 1 then a else b : list message)) by reflexivity.
    unfold Messages.frame_messages. rewrite FM, FH. clear FM FH.
    destruct E as [(E4 & Ef & -> & _ & _ & _ & ->)|[(E4 & Ef & -> & _ & _ & _ & -> & E6)|[(E4 & Ef & -> & _ & _ & _ & -> & E6)|
      [(E8 & -> & _ & _ & _ & -> & _)|[(E7 & -> & _ & _ & _ & ->)|[(N1 & N4 & N7 & N8 & -> & _ & _ & _ & ->)|(E1 & block & Eb & E)]]]]]].
    - rewrite E4, Ef. constructor.
    - rewrite E4, Ef. cbn [Z.eqb Pos.eqb]. rewrite E6. constructor.
    - rewrite E4, Ef. cbn [Z.eqb Pos.eqb]. replace (lenZ (f_payload f) mod 6 =? 0) with false by lia. constructor; [|constructor]. do 3 right; left. reflexivity.
    - rewrite E8. constructor.
    - rewrite E7. constructor.
    - replace (f_type f =? 4) with false by lia. replace (f_type f =? 1) with false by lia. constructor.
    - rewrite E1, Eb. cbn [Z.eqb Pos.eqb]. constructor; [|constructor].
      assert (Herr : Forall (fun m => m_level m = LErr) (decode_messages T d block)).
      { pose proof (clean_loop T (length block) d block : errors (decode_messages T d block)) as H. eapply Forall_impl; [|exact H]. intros m Hm. apply Hm. }
      destruct E as [(Ed & -> & _ & _ & _ & ->)|[(er & Ed & -> & _ & _ & ->)|(hdrs & resp & evr & Ed & Er & E)]]; rewrite Ed.
      + right. rewrite app_nil_r. auto.
      + right. rewrite app_nil_r. auto.
      + pose proof (decode_fits _ _ _ _ _ Ed) as H. cbn [fits] in H. rewrite H. cbn [List.app]. rewrite Er. clear H Herr.
        apply process_request_inv in Er. unfold request_attributes, request_messages.
        destruct Er as [(Hn & _ & -> & ->)|(p & m & a & Ep & Em & Ea & Er)].
        * right. assert (N : forall X (a b : X), match get_header hdrs (str ":path"), get_header hdrs (str ":method") with Some _, Some _ => a | _, _ => b end = b).
          { intros X a b. destruct Hn as [-> | ->]; [reflexivity|]. now destruct (get_header hdrs (str ":path")). }
          split.
          { unfold blank. f_equal. destruct Hn as [-> | ->]; [reflexivity|]. now destruct (get_header hdrs (str ":path")). }
          left. replace (match get_header hdrs (str ":path") with Some _ => _ | None => _ end) with [err (str "invalid request: missing path or method")]
            by (destruct Hn as [-> | ->]; [reflexivity|]; now destruct (get_header hdrs (str ":path"))).
          cbn [rs_headers]. destruct (hpack_encode cs e []) as [x| | |] eqn:Ee; try discriminate Ee. reflexivity.
        * left. rewrite Ep, Em, Ea. cbn [snd]. destruct Er as [(-> & -> & ->)|(r & Hr & -> & ->)].
          { exists (Request m p hdrs), None. rewrite !app_nil_r. destruct E as [(_ & _ & _ & ->)|(rs & E & _)]; [|discriminate].
            split; [now left|]. split; [constructor|]. econstructor. exact Ea. }
          assert (Hin : In (EvRequest (Request m p hdrs) (Some r)) ev).
          { destruct E as [(_ & _ & _ & ->)|(rs & _ & [(_ & _ & _ & ->)|(b & data & _ & _ & _ & ->)])]; now left. }
          exists (Request m p hdrs), (Some r). split; [exact Hin|].
          assert (Hen : forall X (a b : X), match hpack_encode cs e (rs_headers (complete_response r)) with Ret _ => a | _ => b end = a).
          { intros X a0 b0. destruct E as [(H & _)|(rs & H & E)]; [discriminate|]. injection H as <-.
            destruct (hpack_encode_rou cs (rs_headers (complete_response r)) e) as [(x & ->)|Ee]; [reflexivity|].
            destruct E as [(E & _)|(b & data & E & _)]; congruence. }
          split.
          { destruct Hr as [->|[-> ->]]; constructor. }
          rewrite Hen. destruct Hr as [->|[-> ->]].
          -- rewrite app_nil_r. eapply about_answer; [exact Ea|]. pose proof (Happ _ _ _ _ Ea) as Hst.
             destruct (to_string_spec _ Hst) as [D _]. destruct (to_string_spec _ (lenZ_nonneg (rs_body r))) as [D2 _].
             unfold sent_messages. cbn [complete_response rs_status rs_body rq_headers]. destruct (rs_body r) as [|x xs] eqn:Eb2.
             ++ now constructor.
             ++ apply (told_body hdrs (rs_status r) (lenZ (x :: xs)) _ _ D D2). unfold lenZ. cbn. lia.
          -- rewrite <- app_assoc. eapply about_failure. exact Ea.
  Qed.
  Lemma try_fitting c w v c' ev w' : all_bytes (c_rbuf c) -> try_read_frame W app cs T c w = Ret (v, c', ev, w') -> Forall (fitting ev) (try_read_passages c w).
  Proof.
    intros Hb E. apply try_read_frame_inv in E; auto. destruct E as [(_ & _ & -> & _ & Hi)|[(-> & -> & -> & _ & Ho)|(o & rest & f & fe & d & e & Er & Hc & Hp & Hfe)]].
    - rewrite try_passages_outside, try_incomplete by auto. constructor.
    - rewrite try_passages_outside by auto. apply fitting_outside. now apply oversized_warning.
    - erewrite try_passages_chunk by eauto. eapply frame_fitting; eauto.
  Qed.
  Lemma dispatch_fitting c w v c' ev w' : all_bytes (c_rbuf c) -> c_state c <> AwaitingHandshake -> Conn.dispatch W app cs T c w = Ret (v, c', ev, w') ->
    Forall (fitting ev) (dispatch_passages c w).
  Proof.
    intros Hb Hs E. unfold Spans.dispatch_passages, dispatch_messages, preface_messages. apply dispatch_inv in E; auto.
    destruct E as [(Es & H24 & -> & -> & -> & _)|[(Es & H24 & Hne & -> & -> & -> & _)|[(rest & ev2 & Es & Er & -> & E)|
      [(Es & E)|[(Es & -> & -> & -> & _)|[(Es & -> & -> & -> & _)|(Es & -> & -> & -> & _)]]]]]]; rewrite Es.
    - unfold read_preface. change (lenZ CLIENT_PREFACE) with 24. replace (lenZ (c_rbuf c) <? 24) with true by lia. constructor.
    - unfold read_preface. change (lenZ CLIENT_PREFACE) with 24. replace (lenZ (c_rbuf c) <? 24) with false by lia.
      change (length CLIENT_PREFACE) with 24%nat. destruct (bytes_eqb _ _) eqn:Eb; [now apply bytes_eqb_eq in Eb|].
      constructor; [|constructor]. right; left. reflexivity.
    - rewrite (preface_success _ _ Es Er). constructor; [now left|]. cbn [map List.app].
      assert (Hb' : all_bytes rest) by (rewrite Er in Hb; now apply all_bytes_app in Hb as [_ Hb]).
      apply try_fitting in E; [|exact Hb']. now apply (fitting_later [_]).
    - eapply try_fitting; eauto.
    - constructor.
    - unfold close_messages. rewrite Es. constructor; [|constructor]. do 4 right; left. reflexivity.
    - constructor.
  Qed.
  Lemma traced_fitting others t0 w0 A r c tr w ps : traced W app cs T app_says thrown unhandled ip others t0 w0 A r c tr w ps -> Forall (fitting tr) ps.
  Proof.
    assert (F : forall a b x y, Forall (fitting a) x -> Forall (fitting b) y -> Forall (fitting (a ++ b)) (x ++ y)).
    { intros a b x y H K. apply Forall_app. split; [now apply fitting_more|now apply fitting_later]. }
    intros H. apply traced_rule with (P := fun c tr ps => Forall (fitting tr) ps) (Q := fun r c tr ps => Forall (fitting tr) ps) in H.
    - destruct H as [_ H]. now destruct r.
    - constructor.
    - intros. now apply fitting_more.
    - auto.
    - intros. now apply fitting_more.
    - intros wr c0 tr0 ps0 c' ev wr' HP _ _. apply F; auto. apply fitting_outside, general_flush.
    - auto.
    - intros. now apply fitting_more.
    - intros e c0 tr0 ps0 HP _. apply F; auto. apply fitting_outside, general_read.
    - intros c0 tr0 ps0 w1 c' ev w' HP Hb Hs E. apply F; auto. eapply dispatch_fitting; eauto.
    - intros c0 tr0 ps0 w1 r0 c' ev w' HP Hb Hs E. apply F; auto. eapply dispatch_fitting; eauto.
    - intros c0 tr0 ps0 w1 c' ev w' HP Hb Hs E. apply F; auto. apply Forall_app. split; [eapply dispatch_fitting; eauto|].
      constructor; [|constructor]. do 12 right. eexists. split; [eexists _, _; reflexivity|reflexivity].
    - intros r0 c0 tr0 ps0 HQ _. exact HQ.
  Qed.
End Texts.
