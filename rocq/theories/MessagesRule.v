(** Sessions and their messages: a proof rule, and what it gives. *)
From Verif Require Import Base BaseLemmas StaticTable IntCodec Huffman DynTable HpackDec HpackEnc Frames FramesProofs Http Conn SpecFrames SpecConn ConnLemmas ConnRule ConnBasic ConnTerm
  ConnSpec AccessLog Messages SpecMessages MessagesProofs.

Definition read_error_messages (e : transport_error) : list message :=
  match e with
  | WantReadOrWrite | ConnectionClosed => []
  | TransportProtocolError => [err (str "transport protocol error")]
  | WriteError => [err (str "transport write error")]
  | OtherError => [err (str "transport other error (presumed non fatal)")]
  end.

Section Rule.
  Variable W : Type.
  Variable app : request -> W -> W * app_answer.
  Variable cs : bool.
  Variable T : tree.
  Variable app_says : request -> W -> list message.
  Variable thrown : request -> W -> bytes.
  Variable unhandled : conn -> W -> bytes.
  Variable others : W -> W -> Prop.
  Variable t0 : Z.
  Variable w0 : W.
  Variable A : scripts -> Prop.
  Variable P : conn -> trace -> list message -> Prop.
  Variable Q : result -> conn -> trace -> list message -> Prop.
  Notation dispatch := (Conn.dispatch W app cs T).
  Notation dispatch_messages := (dispatch_messages W app cs T app_says thrown).
  Notation narrated := (narrated W app cs T app_says thrown unhandled others t0 w0 A).

  Hypothesis P_start : P (fresh_conn t0) [] [].
  Hypothesis P_hs : forall now c tr ms, P c tr ms -> c_state c = AwaitingHandshake ->
    P (Conn AwaitingPreface (c_rbuf c) (c_wbuf c) (c_dec c) (c_enc c) now) (tr ++ [EvHandshake now]) ms.
  Hypothesis Q_hs : forall c tr ms, P c tr ms -> c_state c = AwaitingHandshake -> Q WantRead c tr ms.
  Hypothesis Q_hs_error : forall e c tr ms, P c tr ms -> c_state c = AwaitingHandshake -> e <> WantReadOrWrite ->
    Q DiscardConnection c (tr ++ [EvHandshakeError e]) ms.
  Hypothesis P_flush : forall wr c tr ms c' ev wr', P c tr ms -> c_state c <> AwaitingHandshake ->
    flush_write_buffer wr c = (c', ev, wr') -> P c' (tr ++ ev) (ms ++ flush_messages wr c).
  Hypothesis Q_blocked : forall c tr ms, P c tr ms -> Q WantWrite c tr ms.
  Hypothesis P_read : forall now o c tr ms, P c tr ms -> c_state c <> AwaitingHandshake ->
    P (Conn (c_state c) (c_rbuf c ++ o) (c_wbuf c) (c_dec c) (c_enc c) now) (tr ++ [EvRead now o]) ms.
  Hypothesis P_read_error : forall e c tr ms, P c tr ms -> c_state c <> AwaitingHandshake ->
    P (match e with
       | ConnectionClosed => set_state ClientClosed c
       | TransportProtocolError => set_state StProtocolError c
       | _ => c
       end) (tr ++ [EvReadError e]) (ms ++ read_error_messages e).
  Hypothesis P_go : forall c tr ms w c' ev w', P c tr ms -> all_bytes (c_rbuf c) -> c_state c <> AwaitingHandshake ->
    dispatch c w = Ret (Continue, c', ev, w') -> P c' (tr ++ ev) (ms ++ dispatch_messages c w).
  Hypothesis Q_return : forall c tr ms w r c' ev w', P c tr ms -> all_bytes (c_rbuf c) -> c_state c <> AwaitingHandshake ->
    dispatch c w = Ret (Return r, c', ev, w') -> Q r c' (tr ++ ev) (ms ++ dispatch_messages c w).
  Hypothesis Q_exception : forall c tr ms w c' ev w' x, P c tr ms -> all_bytes (c_rbuf c) -> c_state c <> AwaitingHandshake ->
    dispatch c w = Ret (Exception, c', ev, w') ->
    Q DiscardConnection (set_state StProtocolError c') (tr ++ ev) (ms ++ dispatch_messages c w ++ [err (str "unhandled error processing connection: " ++ x)]).
  Hypothesis Q_back : forall r c tr ms, Q r c tr ms -> r <> DiscardConnection -> P c tr ms.

  Lemma fill_rule rd : forall c tr ms c' ev rd', P c tr ms -> c_state c <> AwaitingHandshake ->
    fill_read_buffer rd c = (c', ev, rd') -> P c' (tr ++ ev) (ms ++ fill_messages rd c).
  Proof.
    induction rd as [|[now [o|e]] rd IH]; intros c tr ms c' ev rd' HP Hs E; cbn [fill_read_buffer fill_messages] in *.
    - destruct (_ >=? _); injection E as <- <- <-; now rewrite !app_nil_r.
    - destruct (_ >=? _); [injection E as <- <- <-; now rewrite !app_nil_r|].
      destruct (fill_read_buffer rd _) as [[c2 ev2] rd2] eqn:E2. injection E as <- <- <-.
      replace (tr ++ EvRead now o :: ev2) with ((tr ++ [EvRead now o]) ++ ev2) by now rewrite <- app_assoc.
      eapply IH; [| |exact E2]; auto.
    - destruct (_ >=? _); [injection E as <- <- <-; now rewrite !app_nil_r|]. injection E as <- <- <-. now apply (P_read_error e).
  Qed.
  Lemma fill_bytes rd : forall c c' ev rd', all_bytes (c_rbuf c) -> Forall rd_ok rd -> fill_read_buffer rd c = (c', ev, rd') -> all_bytes (c_rbuf c').
  Proof.
    induction rd as [|[now [o|e]] rd IH]; intros c c' ev rd' Hb Hok E; cbn [fill_read_buffer] in E.
    - destruct (_ >=? _); now injection E as <- <- <-.
    - destruct (_ >=? _); [now injection E as <- <- <-|].
      destruct (fill_read_buffer rd _) as [[c2 ev2] rd2] eqn:E2. injection E as <- <- <-. inversion Hok as [|? ? Hx Hok']; subst. destruct Hx as [Ho _].
      eapply IH; [| |exact E2]; auto. cbn. now apply all_bytes_app.
    - destruct (_ >=? _); injection E as <- <- <-; auto. now destruct e.
  Qed.
  Lemma try_bytes c w v c' ev w' : all_bytes (c_rbuf c) -> try_read_frame W app cs T c w = Ret (v, c', ev, w') -> all_bytes (c_rbuf c').
  Proof.
    intros Hb E. apply try_read_frame_inv in E; auto. destruct E as [(_ & -> & _)|[(_ & -> & _)|(o & rest & f & fe & d & e & Er & _ & _ & Hfe)]]; auto.
    pose proof Hb as Hb'. rewrite Er in Hb'. apply all_bytes_app in Hb' as [_ Hb']. destruct fe; destruct Hfe as [_ ->]; auto.
  Qed.
  Lemma dispatch_bytes c w v c' ev w' : all_bytes (c_rbuf c) -> c_state c <> AwaitingHandshake -> dispatch c w = Ret (v, c', ev, w') -> all_bytes (c_rbuf c').
  Proof.
    intros Hb Hs E. apply dispatch_inv in E; auto.
    destruct E as [(_ & _ & _ & -> & _)|[(_ & _ & _ & _ & -> & _)|[(rest & ev2 & _ & Er & _ & E)|
      [(_ & E)|[(_ & _ & -> & _)|[(_ & _ & -> & _)|(_ & _ & -> & _)]]]]]]; auto.
    - eapply try_bytes; [|exact E]. rewrite Er in Hb. now apply all_bytes_app in Hb as [_ Hb].
    - eapply try_bytes; [|exact E]; auto.
  Qed.

  Lemma narrated_loop fuel : forall s c tr ms w v c' ev w', P c tr ms -> all_bytes (c_rbuf c) -> Forall rd_ok (sc_rd s) ->
    internal_process W app cs T fuel s c w = Ret (v, c', ev, w') ->
    all_bytes (c_rbuf c') /\
    match v with
    | Continue => False
    | Return r => Q r c' (tr ++ ev) (ms ++ internal_messages W app cs T app_says thrown unhandled fuel s c w)
    | Exception => Q DiscardConnection (set_state StProtocolError c') (tr ++ ev) (ms ++ internal_messages W app cs T app_says thrown unhandled fuel s c w)
    end.
  Proof.
    induction fuel as [|fuel IH]; intros s c tr ms w v c' ev w' HP Hb Hok E; [easy|].
    cbn [internal_process internal_messages] in *.
    set (H0 := match c_state c with AwaitingHandshake => handle_handshake (sc_hs s) c | _ => _ end) in *.
    assert (HH : (exists r ev0, H0 = (Some r, c, ev0, tl (sc_hs s)) /\ Q r c (tr ++ ev0) ms) \/
                 (exists c0 ev0 hs, H0 = (None, c0, ev0, hs) /\ P c0 (tr ++ ev0) ms /\ c_state c0 <> AwaitingHandshake /\ c_rbuf c0 = c_rbuf c)).
    { subst H0. destruct (c_state c) eqn:Es;
        try (right; exists c, [], (sc_hs s); rewrite app_nil_r; repeat split; auto; congruence).
      unfold handle_handshake. destruct (sc_hs s) as [|[now [|e]] hs'] eqn:Eh.
      - left. exists WantRead, []. rewrite app_nil_r. auto.
      - right. eexists _, _, _. repeat split; auto. cbn. easy.
      - left. destruct e; (eexists _, _; split; [reflexivity|]); try (now apply Q_hs_error).
        rewrite app_nil_r. auto. }
    destruct HH as [(r & ev0 & -> & HQ)|(c0 & ev0 & hs' & -> & HP0 & Hs0 & Hb0)].
    { injection E as <- <- <- <-. now rewrite app_nil_r. }
    destruct (flush_write_buffer (sc_wr s) c0) as [[c1 ev1] wr'] eqn:E1.
    assert (HP1 := P_flush _ _ _ _ _ _ _ HP0 Hs0 E1).
    assert (Hs1 : c_state c1 <> AwaitingHandshake) by eauto using flush_state.
    assert (Hb1 : all_bytes (c_rbuf c1)) by (rewrite (flush_rbuf _ _ _ _ _ E1), Hb0; auto).
    destruct (c_wbuf c1) as [|x xs] eqn:Ew.
    2: { injection E as <- <- <- <-. split; auto. rewrite (app_nil_r (flush_messages _ _)), app_assoc. auto. }
    destruct (fill_read_buffer (sc_rd s) c1) as [[c2 ev2] rd'] eqn:E2.
    assert (HP2 := fill_rule _ _ _ _ _ _ _ HP1 Hs1 E2).
    destruct (fill_state _ _ _ _ _ E2) as [_ Hs2]. specialize (Hs2 Hs1).
    assert (Hb2 := fill_bytes _ _ _ _ _ Hb1 Hok E2).
    destruct (dispatch c2 w) as [[[[v3 c3] ev3] w3]| | |] eqn:E3; try easy. cbn [obind] in E.
    assert (Hb3 := dispatch_bytes _ _ _ _ _ _ Hb2 Hs2 E3).
    destruct v3 as [|r3|].
    - destruct (internal_process W app cs T fuel _ c3 w3) as [[[[v4 c4] ev4] w4]| | |] eqn:E4; try easy.
      cbn [obind] in E. injection E as <- <- <- <-.
      assert (HP3 := P_go _ _ _ _ _ _ _ HP2 Hb2 Hs2 E3).
      eapply IH in E4; [|exact HP3|exact Hb3|cbn [sc_rd]; eapply fill_rest; eauto]. rewrite <- !app_assoc in E4. exact E4.
    - injection E as <- <- <- <-. split; auto.
      assert (HQ := Q_return _ _ _ _ _ _ _ _ HP2 Hb2 Hs2 E3). rewrite <- !app_assoc in HQ. now rewrite (app_nil_r (dispatch_messages _ _)).
    - injection E as <- <- <- <-. split; auto.
      assert (HQ := Q_exception _ _ _ _ _ _ _ (unhandled c2 w) HP2 Hb2 Hs2 E3). now rewrite <- !app_assoc in HQ.
  Qed.

  Lemma narrated_rule r c tr w ms : narrated r c tr w ms ->
    all_bytes (c_rbuf c) /\ match r with None => P c tr ms | Some r => Q r c tr ms end.
  Proof.
    induction 1 as [|r c tr w w' ms _ IH Ho|r c tr w s r' c' ev w' ms _ [Hb IH] Hr Hok _ E].
    - split; [constructor|exact P_start].
    - exact IH.
    - assert (HP : P c tr ms) by (destruct r as [r|]; auto; eapply Q_back; [exact IH|congruence]).
      unfold process in E. destruct (internal_process _ _ _ _ _ _ _ _) as [[[[v c1] ev1] w1]| | |] eqn:E1; try easy. cbn [obind] in E.
      eapply narrated_loop in E1; [|exact HP|exact Hb|exact Hok]. destruct E1 as [Hb1 HQ].
      destruct v; [easy| |]; injection E as <- <- <- <-; split; auto.
  Qed.
End Rule.

(** ** Frames and their messages *)
Lemma try_incomplete W app cs T says thrown c w : incomplete (c_rbuf c) -> try_read_messages W app cs T says thrown c w = [].
Proof.
  unfold try_read_messages. intros [H|(h & E & Hm & Hl)].
  - now replace (lenZ (c_rbuf c) <? 9) with true by lia.
  - destruct (_ <? 9); [reflexivity|]. rewrite E. replace (fh_length h >? MAX_FRAME_SIZE) with false by lia.
    now replace (lenZ (c_rbuf c) <? 9 + fh_length h) with true by lia.
Qed.
Lemma try_oversized W app cs T says thrown c w : oversized (c_rbuf c) ->
  exists t, try_read_messages W app cs T says thrown c w = [warn t].
Proof.
  unfold try_read_messages. intros (H9 & h & E & Hm). replace (lenZ (c_rbuf c) <? 9) with false by lia. rewrite E.
  replace (fh_length h >? MAX_FRAME_SIZE) with true by lia. eauto.
Qed.
Lemma try_chunk W app cs T says thrown c w o f rest : c_rbuf c = o ++ rest -> chunk o f ->
  try_read_messages W app cs T says thrown c w = frame_messages W app cs T says thrown f (c_dec c) (c_enc c) w.
Proof.
  unfold try_read_messages. intros -> (H9 & _ & Eh & Ep & El & Hm). rewrite lenZ_app. pose proof (lenZ_nonneg rest).
  replace (lenZ o + lenZ rest <? 9) with false by lia. rewrite firstn_app_long by (unfold lenZ in *; lia). rewrite Eh.
  replace (fh_length (f_header f) >? MAX_FRAME_SIZE) with false by lia.
  replace (lenZ o + lenZ rest <? 9 + fh_length (f_header f)) with false by lia.
  f_equal. destruct f as [h p]. cbn [f_header f_payload] in *. f_equal. subst p. unfold lenZ in *.
  rewrite skipn_app, firstn_app, skipn_length. rewrite (firstn_all2 (skipn 9 o)) by (rewrite skipn_length; lia).
  replace (Z.to_nat (fh_length h) - (length o - 9))%nat with O by lia. now rewrite app_nil_r.
Qed.

(** What a frame leads to, with its messages. *)
Section Frame.
  Variable W : Type.
  Variable app : request -> W -> W * app_answer.
  Variable cs : bool.
  Variable T : tree.
  Variable app_says : request -> W -> list message.
  Variable thrown : request -> W -> bytes.
  Notation frame_messages := (frame_messages W app cs T app_says thrown).
  Notation request_messages := (request_messages W app app_says thrown).

  Lemma frame_story f d e w fe d' e' w' ev : process_frame W app cs T f d e w = Ret (fe, d', e', w', ev) ->
    (frame_messages f d e w = [] /\ (ev = [] \/ ev = [EvQueue write_settings_ack]) /\
       (fe = FrameDone \/ fe = FrameState ClientClosed /\ f_type f = 7 /\ ev = [])) \/
    (fe = FrameState StProtocolError /\ ev = [] /\ exists m, frame_messages f d e w = [m] /\ m_level m = LErr) \/
    (exists block, fe = FrameThrows /\ ev = [] /\ frame_messages f d e w = decode_messages T d block) \/
    (exists hdrs resp evr w1, process_request W app hdrs w = (w1, resp, evr) /\
       ((fe = FrameThrows /\ ev = evr /\ frame_messages f d e w = request_messages hdrs w) \/
        (exists rs block data, resp = Some rs /\ fe = FrameDone /\
           write_data_response (length (rs_body rs)) (f_stream f) (rs_body rs) = Ret data /\
           ev = evr ++ [EvQueue (write_headers_response (f_stream f) block (match rs_body rs with [] => 5 | _ :: _ => 4 end)); EvQueue data;
                        EvLog hdrs (rs_status rs) (lenZ (rs_body rs))] /\
           frame_messages f d e w = request_messages hdrs w ++ sent_messages rs))).
  Proof.
    intros E. apply process_frame_inv in E.
    assert (FM : forall a b, (if f_type f =? FRAME_TYPE_SETTINGS then a else b) = (if f_type f =? 4 then a else b : list message)) by reflexivity.
    assert (FH : forall a b, (if f_type f =? FRAME_TYPE_HEADERS then a else b) = (if f_type f =? 1 then a else b : list message)) by reflexivity.
    unfold Messages.frame_messages. rewrite FM, FH. clear FM FH.
    destruct E as [(E4 & Ef & -> & _ & _ & _ & ->)|[(E4 & Ef & -> & _ & _ & _ & -> & E6)|[(E4 & Ef & -> & _ & _ & _ & -> & E6)|
      [(E8 & -> & _ & _ & _ & -> & _)|[(E7 & -> & _ & _ & _ & ->)|[(N1 & N4 & N7 & N8 & -> & _ & _ & _ & ->)|(E1 & block & Eb & E)]]]]]].
    - rewrite E4, Ef. left. auto.
    - rewrite E4, Ef. left. cbn [Z.eqb Pos.eqb]. rewrite E6. auto.
    - rewrite E4, Ef. right; left. cbn [Z.eqb Pos.eqb]. replace (lenZ (f_payload f) mod 6 =? 0) with false by lia. repeat split. eexists. split; reflexivity.
    - rewrite E8. left. auto.
    - rewrite E7. left. repeat split; auto.
    - replace (f_type f =? 4) with false by lia. replace (f_type f =? 1) with false by lia. left. auto.
    - rewrite E1, Eb. cbn [Z.eqb Pos.eqb].
      destruct E as [(Ed & -> & _ & _ & _ & ->)|[(er & Ed & -> & _ & _ & ->)|(hdrs & resp & evr & Ed & Er & E)]]; rewrite Ed.
      + right; right; left. exists block. rewrite app_nil_r. auto.
      + right; left. pose proof (decode_fits _ _ _ _ _ Ed) as H. rewrite app_nil_r. auto.
      + pose proof (decode_fits _ _ _ _ _ Ed) as H. cbn [fits] in H. rewrite H. cbn [List.app]. rewrite Er.
        right; right; right. exists hdrs, resp, evr, w'. split; [exact Er|].
        destruct E as [(-> & -> & _ & ->)|(rs & -> & [(Een & -> & _ & ->)|(b & data & Een & Ewd & -> & ->)])].
        * left. rewrite app_nil_r. auto.
        * left. rewrite Een, app_nil_r. auto.
        * right. exists rs, b, data. rewrite Een. auto.
  Qed.
End Frame.

(** ** Reports of responses *)
Lemma infos_app a b : infos (a ++ b) = infos a ++ infos b.
Proof. apply filter_app. Qed.
Lemma tells_app a b x y : tells a x -> tells b y -> tells (a ++ b) (x ++ y).
Proof. intros (ma & H1 & ->) (mb & H2 & ->). exists (ma ++ mb). split; [now apply Forall2_app|now rewrite concat_app]. Qed.
Lemma tells_nil : tells [] [].
Proof. exists []. split; [constructor|reflexivity]. Qed.
Lemma tells_one e m : told e m -> tells [e] m.
Proof. intros H. exists [m]. split; [repeat constructor; auto|]. cbn. now rewrite app_nil_r. Qed.
Lemma tells_none ev : Forall (fun e => (forall hs st sz, e <> EvLog hs st sz) /\ e <> EvQueue settings_octets) ev -> tells ev [].
Proof.
  induction 1 as [|e ev [H1 H2] _ IH]; [apply tells_nil|]. change (@nil message) with (@nil message ++ []). change (e :: ev) with ([e] ++ ev).
  apply tells_app; auto. apply tells_one. now constructor.
Qed.
Ltac tells_silent := apply tells_none; repeat constructor; discriminate.
Lemma fits_infos {X} ms (r : expected frame_error X) : fits ms r -> infos ms = [].
Proof. destruct r; cbn [fits]; [intros ->; reflexivity|]. intros (m & -> & E). unfold infos. cbn. now rewrite E. Qed.

Section Tells.
  Variable W : Type.
  Variable app : request -> W -> W * app_answer.
  Variable cs : bool.
  Variable T : tree.
  Variable app_says : request -> W -> list message.
  Variable thrown : request -> W -> bytes.
  Variable unhandled : conn -> W -> bytes.
  Hypothesis Hsays : forall rq w, infos (app_says rq w) = [].
  Hypothesis Happ : forall rq w w' r, app rq w = (w', Answers r) -> 0 <= rs_status r.

  Lemma infos_request hs w : infos (request_messages W app app_says thrown hs w) = [].
  Proof.
    unfold request_messages. destruct (get_header hs (str ":path")) as [p|]; [|reflexivity]. destruct (get_header hs (str ":method")) as [m|]; [|reflexivity].
    rewrite infos_app, Hsays. now destruct (snd _).
  Qed.
  Lemma infos_decode T' t data : infos (decode_messages T' t data) = [].
  Proof.
    pose proof (clean_loop T' (length data) t data : errors (decode_messages T' t data)) as H. induction H as [|m ms [_ Hm] _ IH]; [reflexivity|].
    unfold infos in *. cbn [filter]. now rewrite Hm.
  Qed.
  Lemma status_ok hs w w1 rs evr : process_request W app hs w = (w1, Some rs, evr) -> 0 <= rs_status rs.
  Proof.
    intros E. apply process_request_inv in E. destruct E as [(_ & _ & [= ->] & _)|(p & m & a & _ & _ & Ea & [(_ & H & _)|(r & Hr & [= ->] & _)])]; [easy|easy|].
    destruct Hr as [->|[_ ->]]; [|easy]. now apply Happ in Ea.
  Qed.
  Lemma sent_tells hs rs : 0 <= rs_status rs -> tells [EvLog hs (rs_status rs) (lenZ (rs_body rs))] (infos (sent_messages rs)).
  Proof.
    intros H. destruct (to_string_spec _ H) as [D _]. destruct (to_string_spec _ (lenZ_nonneg (rs_body rs))) as [D2 _].
    apply tells_one. unfold sent_messages. destruct (rs_body rs) as [|x xs] eqn:E.
    - now constructor.
    - apply (told_body hs (rs_status rs) (lenZ (x :: xs)) _ _ D D2). unfold lenZ. cbn. lia.
  Qed.
  Lemma data_not_settings fuel stream body data : write_data_response fuel stream body = Ret data -> data <> settings_octets.
  Proof.
    destruct body as [|x body]; [destruct fuel; intros [= <-]; discriminate|].
    destruct fuel as [|fuel]; [discriminate|]. cbn [write_data_response].
    destruct (write_data_response fuel _ _) as [more| | |]; cbn [obind]; try discriminate.
    intros E H. apply (f_equal (fun o => match o with Ret l => nth_error l 3 | _ => None end)) in E. rewrite H in E. discriminate E.
  Qed.
  Lemma frame_tells f d e w fe d' e' w' ev : process_frame W app cs T f d e w = Ret (fe, d', e', w', ev) ->
    tells ev (infos (frame_messages W app cs T app_says thrown f d e w)).
  Proof.
    intros E. apply frame_story with (app_says := app_says) (thrown := thrown) in E.
    destruct E as [(-> & Hev & _)|[(_ & -> & m & -> & Hm)|[(block & _ & -> & ->)|(hdrs & resp & evr & w1 & Er & E)]]].
    - destruct Hev as [-> | ->]; [apply tells_nil|tells_silent].
    - unfold infos. cbn. rewrite Hm. apply tells_nil.
    - rewrite infos_decode. apply tells_nil.
    - assert (Hevr : tells evr []).
      { apply process_request_inv in Er. destruct Er as [(_ & _ & _ & ->)|(p & m & a & _ & _ & _ & [(_ & _ & ->)|(r & _ & _ & ->)])];
          [apply tells_nil|tells_silent|tells_silent]. }
      destruct E as [(_ & -> & ->)|(rs & block & data & -> & _ & Ewd & -> & ->)].
      + now rewrite infos_request.
      + rewrite infos_app, infos_request. apply tells_app; auto.
        change ([EvQueue ?a; EvQueue ?b; ?c]) with ([EvQueue a; EvQueue b] ++ [c]).
        change (infos (sent_messages rs)) with ([] ++ infos (sent_messages rs)). apply tells_app.
        * apply tells_none. constructor; [split; [discriminate|]|constructor; [split; [discriminate|]|constructor]].
          -- intros H. apply (f_equal (fun e => match e with EvQueue l => nth_error l 3 | _ => None end)) in H. revert H. clear.
             unfold write_headers_response. destruct (rs_body rs); discriminate.
          -- intros H. apply (data_not_settings _ _ _ _ Ewd). change (match EvQueue data with EvQueue l => l | _ => [] end = settings_octets). now rewrite H.
        * apply sent_tells. eapply status_ok; eauto.
  Qed.
  Lemma try_tells c w v c' ev w' : all_bytes (c_rbuf c) -> try_read_frame W app cs T c w = Ret (v, c', ev, w') ->
    tells ev (infos (try_read_messages W app cs T app_says thrown c w)).
  Proof.
    intros Hb E. apply try_read_frame_inv in E; auto. destruct E as [(_ & _ & -> & _ & Hi)|[(_ & _ & -> & _ & Ho)|(o & rest & f & fe & d & e & Er & Hc & Hp & _)]].
    - rewrite try_incomplete; auto. apply tells_nil.
    - edestruct try_oversized as [t ->]; eauto. apply tells_nil.
    - erewrite try_chunk by eauto. eapply frame_tells; eauto.
  Qed.
  Lemma dispatch_tells c w v c' ev w' : all_bytes (c_rbuf c) -> c_state c <> AwaitingHandshake -> Conn.dispatch W app cs T c w = Ret (v, c', ev, w') ->
    tells ev (infos (dispatch_messages W app cs T app_says thrown c w)).
  Proof.
    intros Hb Hs E. unfold dispatch_messages, preface_messages.
    pose proof E as E0. apply dispatch_inv in E; auto.
    destruct E as [(Es & H24 & _ & _ & -> & _)|[(Es & H24 & Hne & _ & _ & -> & _)|[(rest & ev2 & Es & Er & -> & E)|
      [(Es & E)|[(Es & _ & _ & -> & _)|[(Es & _ & _ & -> & _)|(Es & _ & _ & -> & _)]]]]]]; rewrite Es.
    - unfold read_preface. change (lenZ CLIENT_PREFACE) with 24. replace (lenZ (c_rbuf c) <? 24) with true by lia. apply tells_nil.
    - unfold read_preface. change (lenZ CLIENT_PREFACE) with 24. replace (lenZ (c_rbuf c) <? 24) with false by lia.
      change (length CLIENT_PREFACE) with 24%nat. destruct (bytes_eqb _ _) eqn:Eb; [now apply bytes_eqb_eq in Eb|]. apply tells_nil.
    - assert (Ep : read_preface c = (PrefaceSuccess, Conn AwaitingFrame rest (c_wbuf c ++ write_settings) (c_dec c) (c_enc c) (c_last c), [EvQueue write_settings])).
      { unfold Conn.dispatch in E0. rewrite Es in E0. unfold read_preface in *. rewrite Er in *. change (lenZ CLIENT_PREFACE) with 24 in *. rewrite lenZ_app in *.
        change (lenZ CLIENT_PREFACE) with 24 in *. pose proof (lenZ_nonneg rest). replace (24 + lenZ rest <? 24) with false in * by lia.
        replace (firstn (length CLIENT_PREFACE) (CLIENT_PREFACE ++ rest)) with CLIENT_PREFACE in * by now rewrite firstn_app, Nat.sub_diag, firstn_all, app_nil_r.
        replace (bytes_eqb CLIENT_PREFACE CLIENT_PREFACE) with true in * by now symmetry; apply bytes_eqb_eq.
        unfold enqueue, set_state, discard. cbn [c_state c_rbuf c_wbuf c_dec c_enc c_last]. rewrite Er. reflexivity. }
      rewrite Ep, infos_app. change (EvQueue write_settings :: ev2) with ([EvQueue write_settings] ++ ev2). apply tells_app.
      + apply tells_one. exact told_preface.
      + eapply try_tells; [|exact E]. cbn. rewrite Er in Hb. now apply all_bytes_app in Hb as [_ Hb].
    - eapply try_tells; eauto.
    - tells_silent.
    - unfold close_messages. rewrite Es. cbn [infos filter m_level err]. tells_silent.
    - apply tells_nil.
  Qed.

  Lemma narrated_tells others t0 w0 A r c tr w ms :
    narrated W app cs T app_says thrown unhandled others t0 w0 A r c tr w ms -> tells tr (infos ms).
  Proof.
    intros H. assert (M : forall tr ev ms more, tells tr (infos ms) -> tells ev (infos more) -> tells (tr ++ ev) (infos (ms ++ more))).
    { intros. rewrite infos_app. now apply tells_app. }
    assert (M0 : forall tr ev ms, tells tr (infos ms) -> tells ev [] -> tells (tr ++ ev) (infos ms)).
    { intros. rewrite <- (app_nil_r (infos _)). now apply tells_app. }
    apply narrated_rule with (P := fun _ tr ms => tells tr (infos ms)) (Q := fun _ _ tr ms => tells tr (infos ms)) in H; auto.
    - destruct H as [_ H]. now destruct r.
    - apply tells_nil.
    - intros. apply M0; auto. tells_silent.
    - intros. apply M0; auto. tells_silent.
    - intros wr c0 tr0 ms0 c' ev wr' HP _ E. apply M; auto. unfold flush_write_buffer, flush_messages in *.
      destruct (c_wbuf c0); [injection E as _ <- _; apply tells_nil|].
      destruct wr as [|[now [n|k|e]] wr]; try destruct e; injection E as _ <- _; first [apply tells_nil|tells_silent].
    - intros. apply M0; auto. tells_silent.
    - intros e c0 tr0 ms0 HP _. apply M; auto. destruct e; cbn [read_error_messages infos filter m_level err]; tells_silent.
    - intros. apply M; auto. eapply dispatch_tells; eauto.
    - intros. apply M; auto. eapply dispatch_tells; eauto.
    - intros. apply M; auto. rewrite infos_app. rewrite app_nil_r. eapply dispatch_tells; eauto.
  Qed.
End Tells.

(** ** Alarms *)
Lemma alarmed_app a b : alarmed (a ++ b) <-> alarmed a \/ alarmed b.
Proof.
  unfold alarmed. split.
  - intros (m & Hi & Ha). apply in_app_iff in Hi. destruct Hi; eauto.
  - intros [(m & Hi & Ha)|(m & Hi & Ha)]; exists m; split; auto; apply in_app_iff; auto.
Qed.
Lemma alarmed_nil : ~ alarmed [].
Proof. intros (m & [] & _). Qed.
Lemma alarmed_cons m ms : alarmed (m :: ms) <-> alarming m \/ alarmed ms.
Proof.
  change (m :: ms) with ([m] ++ ms). rewrite alarmed_app. split; (intros [H|H]; [left|right; exact H]).
  - destruct H as (x & [<-|[]] & H). exact H.
  - exists m. split; [now left|exact H].
Qed.
Lemma alarming_err t : alarming (err t).
Proof. right; left. reflexivity. Qed.
Lemma alarming_warn t : alarming (warn t).
Proof. left. reflexivity. Qed.
Lemma not_info t : ~ alarming (info t).
Proof. intros [H|[H|H]]; discriminate H. Qed.
Lemma received_quiet ev : Forall (fun e => forall t o, e <> EvRead t o) ev -> received ev = [].
Proof. induction 1 as [|e ev H _ IH]; [reflexivity|]. destruct e; auto. now destruct (H t o). Qed.

Lemma preface_success c rest : c_state c = AwaitingPreface -> c_rbuf c = CLIENT_PREFACE ++ rest ->
  read_preface c = (PrefaceSuccess, Conn AwaitingFrame rest (c_wbuf c ++ write_settings) (c_dec c) (c_enc c) (c_last c), [EvQueue write_settings]).
Proof.
  intros Es Er. unfold read_preface. rewrite Er. rewrite lenZ_app.
  change (lenZ CLIENT_PREFACE) with 24 in *. pose proof (lenZ_nonneg rest). replace (24 + lenZ rest <? 24) with false in * by lia.
  replace (firstn (length CLIENT_PREFACE) (CLIENT_PREFACE ++ rest)) with CLIENT_PREFACE in * by now rewrite firstn_app, Nat.sub_diag, firstn_all, app_nil_r.
  replace (bytes_eqb CLIENT_PREFACE CLIENT_PREFACE) with true in * by now symmetry; apply bytes_eqb_eq.
  unfold enqueue, set_state, discard. cbn [c_state c_rbuf c_wbuf c_dec c_enc c_last]. now rewrite Er.
Qed.

Section Alarms.
  Variable W : Type.
  Variable app : request -> W -> W * app_answer.
  Variable cs : bool.
  Variable T : tree.
  Variable app_says : request -> W -> list message.
  Variable thrown : request -> W -> bytes.
  Variable unhandled : conn -> W -> bytes.
  Notation frame_messages := (frame_messages W app cs T app_says thrown).
  Notation dispatch_messages := (dispatch_messages W app cs T app_says thrown).
  Notation try_read_messages := (try_read_messages W app cs T app_says thrown).

  (** The connection has an uneventful past. *)
  Definition uneventful (c : conn) (tr : trace) : Prop :=
    Forall calm tr /\
    match c_state c with
    | AwaitingHandshake | AwaitingPreface => received tr = c_rbuf c
    | AwaitingFrame => exists fs a, received tr = rfc_preface ++ a ++ c_rbuf c /\ frames_octets fs a
    | ClientClosed => In (EvReadError ConnectionClosed) tr \/ client_left (received tr)
    | StProtocolError | Closing => False
    end.
  Definition left_quietly (tr : trace) : Prop :=
    Forall calm tr /\ ((exists e, In (EvHandshakeError e) tr) \/ In (EvReadError ConnectionClosed) tr \/ client_left (received tr)).

  Lemma frame_calm f d e w fe d' e' w' ev : process_frame W app cs T f d e w = Ret (fe, d', e', w', ev) ->
    ~ alarmed (frame_messages f d e w) ->
    received ev = [] /\ match fe with FrameThrows => True | FrameDone => Forall calm ev | FrameState s => s = ClientClosed /\ f_type f = 7 /\ Forall calm ev end.
  Proof.
    intros E. apply frame_story with (app_says := app_says) (thrown := thrown) in E.
    destruct E as [(-> & Hev & Hfe)|[(_ & -> & m & -> & Hm)|[(block & -> & -> & ->)|(hdrs & resp & evr & w1 & Er & E)]]]; intros Ha.
    - destruct Hfe as [-> | (-> & H7 & ->)]; [|now repeat split]. destruct Hev as [-> | ->]; repeat constructor.
    - destruct Ha. exists m. split; [now left|]. right; left. exact Hm.
    - now split.
    - assert (Hevr : received evr = [] /\ (resp = None \/ Forall calm evr)).
      { apply process_request_inv in Er. destruct Er as [(_ & _ & _ & ->)|(p & m & a & _ & _ & _ & [(_ & H & ->)|(r & _ & _ & ->)])]; split; auto; right; repeat constructor. }
      destruct Hevr as [Hr Hc]. destruct E as [(-> & -> & _)|(rs & block & data & -> & -> & Ewd & -> & _)]; [now split|].
      split; [now rewrite received_app, Hr|]. apply Forall_app. destruct Hc as [Hc|Hc]; [discriminate|]. split; auto. repeat constructor.
  Qed.

  Lemma try_calm c tr w v c' ev w' : uneventful c tr -> c_state c = AwaitingFrame -> all_bytes (c_rbuf c) ->
    try_read_frame W app cs T c w = Ret (v, c', ev, w') -> ~ alarmed (try_read_messages c w) ->
    match v with Exception => True | Return r => r = WantRead /\ uneventful c' (tr ++ ev) | Continue => uneventful c' (tr ++ ev) end.
  Proof.
    intros [Hc Hs] Es Hb E Ha. rewrite Es in Hs. destruct Hs as (fs & a & Hrec & Hfs). apply try_read_frame_inv in E; auto.
    destruct E as [(-> & -> & -> & _ & Hi)|[(-> & -> & -> & _ & Ho)|(o & rest & f & fe & d & e & Er & Hch & Hp & Hfe)]].
    - split; auto. rewrite app_nil_r. split; auto. rewrite Es. eauto.
    - destruct Ha. edestruct try_oversized as [t ->]; eauto. apply alarmed_cons. left. apply alarming_warn.
    - erewrite try_chunk in Ha by eauto. destruct (frame_calm _ _ _ _ _ _ _ _ _ Hp Ha) as [Hrev Hcalm].
      destruct fe as [|s|]; destruct Hfe as [-> ->]; [| |trivial].
      + split; [now apply Forall_app|]. cbn [c_state c_rbuf]. rewrite Es. exists (fs ++ [wf f]), (a ++ o).
        rewrite received_app, Hrev, app_nil_r, Hrec, Er, <- !app_assoc. split; [reflexivity|].
        apply frames_octets_app; auto. apply frames_octets_one. now apply chunk_frame_octets.
      + destruct Hcalm as (-> & H7 & Hcalm). split; [now apply Forall_app|]. cbn [c_state]. right.
        exists fs, a, (wf f), o, rest. rewrite received_app, Hrev, app_nil_r, Hrec, Er. repeat split; auto. now apply chunk_frame_octets.
  Qed.

  Lemma dispatch_calm c tr w v c' ev w' : uneventful c tr -> c_state c <> AwaitingHandshake -> all_bytes (c_rbuf c) ->
    Conn.dispatch W app cs T c w = Ret (v, c', ev, w') -> ~ alarmed (dispatch_messages c w) ->
    match v with
    | Exception => True
    | Return DiscardConnection => left_quietly (tr ++ ev)
    | _ => uneventful c' (tr ++ ev)
    end.
  Proof.
    intros HU Hs Hb E. unfold Messages.dispatch_messages, preface_messages. apply dispatch_inv in E; auto.
    destruct E as [(Es & H24 & -> & -> & -> & _)|[(Es & H24 & Hne & -> & -> & -> & _)|[(rest & ev2 & Es & Er & -> & E)|
      [(Es & E)|[(Es & -> & -> & -> & _)|[(Es & -> & -> & -> & _)|(Es & -> & -> & -> & _)]]]]]]; rewrite Es.
    - now rewrite app_nil_r.
    - unfold read_preface. change (lenZ CLIENT_PREFACE) with 24. replace (lenZ (c_rbuf c) <? 24) with false by lia.
      change (length CLIENT_PREFACE) with 24%nat. destruct (bytes_eqb _ _) eqn:Eb; [now apply bytes_eqb_eq in Eb|].
      intros Ha. destruct Ha. apply alarmed_cons. left. apply alarming_err.
    - rewrite (preface_success _ _ Es Er). intros Ha. destruct HU as [Hc Hrec]. rewrite Es, Er in Hrec.
      change (tr ++ EvQueue write_settings :: ev2) with (tr ++ [EvQueue write_settings] ++ ev2). rewrite app_assoc.
      rewrite alarmed_app in Ha. eapply try_calm in E; [| |reflexivity| |].
      + destruct v as [|r|]; [exact E| |trivial]. destruct E as [-> E]. exact E.
      + split; [apply Forall_app; split; auto; repeat constructor|]. cbn [c_state c_rbuf]. exists [], []. rewrite received_app, Hrec. cbn [received flat_map List.app].
        rewrite app_nil_r. split; [reflexivity|apply frames_octets_nil].
      + cbn. rewrite Er in Hb. now apply all_bytes_app in Hb as [_ Hb].
      + tauto.
    - intros Ha. eapply try_calm in E; eauto. destruct v as [|r|]; [exact E| |trivial]. destruct E as [-> E]. exact E.
    - destruct HU as [_ HU]. rewrite Es in HU. easy.
    - destruct HU as [_ HU]. rewrite Es in HU. easy.
    - intros _. destruct HU as [Hc HU]. rewrite Es in HU. rewrite app_nil_r. split; auto.
  Qed.

  Lemma narrated_calm others t0 w0 A r c tr w ms :
    narrated W app cs T app_says thrown unhandled others t0 w0 A r c tr w ms -> ~ alarmed ms ->
    Forall calm tr /\ (r = Some DiscardConnection -> left_quietly tr).
  Proof.
    intros H. apply narrated_rule with (P := fun c tr ms => ~ alarmed ms -> uneventful c tr)
      (Q := fun r c tr ms => ~ alarmed ms -> match r with DiscardConnection => left_quietly tr | _ => uneventful c tr end) in H.
    - destruct H as [_ H]. intros Ha. destruct r as [[]|]; specialize (H Ha); split; try discriminate; try apply H. auto.
    - intros _. split; [constructor|reflexivity].
    - intros now c0 tr0 ms0 HP Es Ha. destruct (HP Ha) as [Hc Hs]. rewrite Es in Hs. split; [apply Forall_app; split; auto; repeat constructor|].
      cbn [c_state c_rbuf]. rewrite received_app, app_nil_r. exact Hs.
    - intros c0 tr0 ms0 HP _ Ha. auto.
    - intros e c0 tr0 ms0 HP Es _ Ha. destruct (HP Ha) as [Hc Hs]. split; [apply Forall_app; split; auto; repeat constructor|]. left. exists e.
      apply in_app_iff. right. now left.
    - intros wr c0 tr0 ms0 c' ev wr' HP Hs E Ha. rewrite alarmed_app in Ha.
      destruct (HP ltac:(tauto)) as [Hc Hst]. unfold flush_write_buffer, flush_messages in *. destruct (c_wbuf c0).
      { injection E as <- <- _. rewrite app_nil_r. now split. }
      assert (K : forall ev, Forall calm ev -> received ev = [] -> match c_state c0 with
          | AwaitingHandshake | AwaitingPreface => received (tr0 ++ ev) = c_rbuf c0
          | AwaitingFrame => exists fs a, received (tr0 ++ ev) = rfc_preface ++ a ++ c_rbuf c0 /\ frames_octets fs a
          | ClientClosed => In (EvReadError ConnectionClosed) (tr0 ++ ev) \/ client_left (received (tr0 ++ ev))
          | StProtocolError | Closing => False
          end).
      { intros ev0 _ Hr. rewrite received_app, Hr, app_nil_r. destruct (c_state c0); auto. rewrite in_app_iff. tauto. }
      destruct wr as [|[now [n|k|e]] wr].
      + injection E as <- <- _. split; [apply Forall_app; split; auto; repeat constructor|]. apply K; repeat constructor.
      + injection E as <- <- _. split; [apply Forall_app; split; auto; repeat constructor|]. apply K; repeat constructor.
      + destruct Ha. right. apply alarmed_cons. left. apply alarming_err.
      + destruct e; try (destruct Ha; right; apply alarmed_cons; left; apply alarming_err).
        injection E as <- <- _. split; [apply Forall_app; split; auto; repeat constructor|]. apply K; repeat constructor.
    - auto.
    - intros now o c0 tr0 ms0 HP Hs Ha. destruct (HP Ha) as [Hc Hst]. split; [apply Forall_app; split; auto; repeat constructor|].
      cbn [c_state c_rbuf]. rewrite received_app. cbn [received flat_map]. rewrite app_nil_r. destruct (c_state c0); try congruence.
      + destruct Hst as (fs & a & -> & Hf). exists fs, a. split; auto. now rewrite <- !app_assoc.
      + destruct Hst as [Hst|(fs & a & f & b & rest & -> & Hst)]; [left; apply in_app_iff; auto|right].
        exists fs, a, f, b, (rest ++ o). now rewrite <- !app_assoc.
    - intros e c0 tr0 ms0 HP Hs Ha. rewrite alarmed_app in Ha. destruct (HP ltac:(tauto)) as [Hc Hst].
      destruct e; cbn [read_error_messages] in Ha;
        try (destruct Ha; right; apply alarmed_cons; left; apply alarming_err).
      + split; [apply Forall_app; split; auto; repeat constructor|]. rewrite received_app, app_nil_r.
        destruct (c_state c0); auto. rewrite in_app_iff. tauto.
      + split; [apply Forall_app; split; auto; repeat constructor|]. left. apply in_app_iff. right. now left.
    - intros c0 tr0 ms0 w1 c' ev w' HP Hb Hs E Ha. rewrite alarmed_app in Ha.
      eapply dispatch_calm in E; eauto; tauto.
    - intros c0 tr0 ms0 w1 r0 c' ev w' HP Hb Hs E Ha. rewrite alarmed_app in Ha.
      eapply dispatch_calm in E; [| |exact Hs|exact Hb|]; [destruct r0; exact E| |]; tauto.
    - intros c0 tr0 ms0 w1 c' ev w' x HP Hb Hs E Ha. destruct Ha. rewrite !alarmed_app. right; right. apply alarmed_cons. left. apply alarming_err.
    - intros r0 c0 tr0 ms0 HQ Hr Ha. specialize (HQ Ha). destruct r0; easy.
  Qed.
End Alarms.

(** ** No alarm without a cause *)
Section Causes.
  Variable W : Type.
  Variable app : request -> W -> W * app_answer.
  Variable cs : bool.
  Variable T : tree.
  Variable app_says : request -> W -> list message.
  Variable thrown : request -> W -> bytes.
  Variable unhandled : conn -> W -> bytes.
  Notation frame_messages := (frame_messages W app cs T app_says thrown).
  Notation dispatch_messages := (dispatch_messages W app cs T app_says thrown).
  Notation try_read_messages := (try_read_messages W app cs T app_says thrown).

  Definition cause (tr : trace) : Prop :=
    Exists (fun e => ~ calm e) tr \/ Exists incomplete_request tr \/
    exists rq a w, In (EvRequest rq a) tr /\ (alarmed (app_says rq w) \/ exists w', app rq w = (w', Fails)).
  Lemma cause_l a b : cause a -> cause (a ++ b).
  Proof.
    intros [H|[H|(rq & x & w & H & K)]].
    - left. apply Exists_app. auto.
    - right; left. apply Exists_app. auto.
    - right; right. exists rq, x, w. split; auto. apply in_app_iff. auto.
  Qed.
  Lemma cause_r a b : cause b -> cause (a ++ b).
  Proof.
    intros [H|[H|(rq & x & w & H & K)]].
    - left. apply Exists_app. auto.
    - right; left. apply Exists_app. auto.
    - right; right. exists rq, x, w. split; auto. apply in_app_iff. auto.
  Qed.

  Lemma request_cause hdrs w w1 rs evr tail st sz : process_request W app hdrs w = (w1, Some rs, evr) ->
    alarmed (request_messages W app app_says thrown hdrs w) -> cause (evr ++ tail ++ [EvLog hdrs st sz]).
  Proof.
    intros E. unfold request_messages. apply process_request_inv in E.
    destruct E as [(Hn & _ & _ & ->)|(p & m & a & Ep & Em & Ea & [(_ & H & _)|(r & Hr & _ & ->)])]; [|discriminate|].
    - intros _. right; left. apply Exists_app. right. apply Exists_app. right. left. cbn. destruct Hn as [Hn|Hn]; [left|right]; now apply get_header_none.
    - rewrite Ep, Em, alarmed_app, Ea. cbn [snd]. intros Ha. apply cause_l. right; right. exists (Request m p hdrs), (Some r), w. split; [now left|].
      destruct Ha as [Ha|Ha]; [now left|]. right. destruct Hr as [->|[-> _]]; [now apply alarmed_nil in Ha|]. now exists w1.
  Qed.
  Lemma sent_quiet rs : ~ alarmed (sent_messages rs).
  Proof.
    unfold sent_messages. rewrite alarmed_cons. intros [H|H]; [now apply not_info in H|]. destruct (rs_body rs); [now apply alarmed_nil in H|].
    apply alarmed_cons in H as [H|H]; [now apply not_info in H|now apply alarmed_nil in H].
  Qed.
  Lemma frame_cause f d e w d' e' w' fe ev : process_frame W app cs T f d e w = Ret (fe, d', e', w', ev) ->
    alarmed (frame_messages f d e w) -> cause ev \/ fe = FrameState StProtocolError \/ fe = FrameThrows.
  Proof.
    intros E. apply frame_story with (app_says := app_says) (thrown := thrown) in E.
    destruct E as [(-> & _)|[(-> & _)|[(block & -> & _)|(hdrs & resp & evr & w1 & Er & E)]]]; auto.
    - intros H. now apply alarmed_nil in H.
    - destruct E as [(-> & _)|(rs & block & data & -> & -> & Ewd & -> & ->)]; auto. intros Ha. left.
      apply alarmed_app in Ha as [Ha|Ha]; [|now apply sent_quiet in Ha].
      change ([EvQueue ?a; EvQueue ?b; ?c]) with ([EvQueue a; EvQueue b] ++ [c]). eapply request_cause; eauto.
  Qed.
  Definition giving_up (c : conn) : Prop := c_state c = StProtocolError \/ c_state c = ClientClosed.
  Lemma try_cause c w v c' ev w' : all_bytes (c_rbuf c) -> try_read_frame W app cs T c w = Ret (v, c', ev, w') ->
    alarmed (try_read_messages c w) -> cause ev \/ v = Exception \/ v = Continue /\ giving_up c'.
  Proof.
    intros Hb E. apply try_read_frame_inv in E; auto. destruct E as [(_ & _ & -> & _ & Hi)|[(-> & -> & -> & _ & Ho)|(o & rest & f & fe & d & e & Er & Hc & Hp & Hfe)]].
    - rewrite try_incomplete; auto. intros H. now apply alarmed_nil in H.
    - intros _. right; right. split; auto. now left.
    - erewrite try_chunk by eauto. intros Ha. eapply frame_cause in Hp; eauto. destruct Hp as [Hp|[-> | ->]]; auto; destruct Hfe as [-> ->]; auto.
      right; right. split; auto. now left.
  Qed.
  Lemma dispatch_cause c w v c' ev w' : all_bytes (c_rbuf c) -> c_state c <> AwaitingHandshake -> Conn.dispatch W app cs T c w = Ret (v, c', ev, w') ->
    (giving_up c -> v = Return DiscardConnection) /\
    (alarmed (dispatch_messages c w) -> cause ev \/ v = Exception \/ v = Return DiscardConnection \/ v = Continue /\ giving_up c').
  Proof.
    intros Hb Hs E. unfold Messages.dispatch_messages, preface_messages. apply dispatch_inv in E; auto.
    destruct E as [(Es & H24 & -> & -> & -> & _)|[(Es & H24 & Hne & -> & -> & -> & _)|[(rest & ev2 & Es & Er & -> & E)|
      [(Es & E)|[(Es & -> & -> & -> & _)|[(Es & -> & -> & -> & _)|(Es & -> & -> & -> & _)]]]]]]; unfold giving_up; rewrite Es; (split; [try (intros []; discriminate); auto|]).
    - unfold read_preface. change (lenZ CLIENT_PREFACE) with 24. replace (lenZ (c_rbuf c) <? 24) with true by lia. intros H. now apply alarmed_nil in H.
    - auto.
    - rewrite (preface_success _ _ Es Er). intros Ha. apply alarmed_app in Ha as [Ha|Ha].
      { apply alarmed_cons in Ha as [H|H]; [now apply not_info in H|now apply alarmed_nil in H]. }
      assert (Hb' : all_bytes rest) by (rewrite Er in Hb; now apply all_bytes_app in Hb as [_ Hb]).
      eapply try_cause in E; [|exact Hb'|exact Ha]. destruct E as [E|[E|[E F]]]; auto. left. now apply (cause_r [_]).
    - intros Ha. eapply try_cause in E; eauto. destruct E as [E|[E|[E F]]]; auto.
    - auto.
    - auto.
    - auto.
  Qed.

  Lemma narrated_cause others t0 w0 A r c tr w ms :
    narrated W app cs T app_says thrown unhandled others t0 w0 A r c tr w ms -> r = Some WantRead -> alarmed ms -> cause tr.
  Proof.
    intros H. apply narrated_rule with (P := fun c tr ms => alarmed ms -> cause tr \/ giving_up c)
      (Q := fun r c tr ms => match r with WantRead => (alarmed ms -> cause tr) | WantWrite => (alarmed ms -> cause tr \/ giving_up c) | DiscardConnection => True end) in H.
    - destruct H as [_ H]. intros ->. exact H.
    - intros H0. now apply alarmed_nil in H0.
    - intros now c0 tr0 ms0 HP Es Ha. destruct (HP Ha) as [K|K]; [left; now apply cause_l|]. destruct K; congruence.
    - intros c0 tr0 ms0 HP Es Ha. destruct (HP Ha) as [K|K]; auto. destruct K; congruence.
    - auto.
    - intros wr c0 tr0 ms0 c' ev wr' HP Hs E Ha. apply alarmed_app in Ha.
      assert (E' : (giving_up c0 -> giving_up c') /\ (alarmed (flush_messages wr c0) -> cause ev)).
      { unfold flush_write_buffer, flush_messages in *. destruct (c_wbuf c0).
        { injection E as <- <- _. split; auto. intros K. now apply alarmed_nil in K. }
        destruct wr as [|[now [n|k|e]] wr]; try destruct e; injection E as <- <- _; (split; [auto; try (now left)|]);
          intros K; first [now apply alarmed_nil in K|left; left; discriminate]. }
      destruct E' as [E1 E2]. destruct Ha as [Ha|Ha]; [|left; apply cause_r; auto].
      destruct (HP Ha) as [K|K]; [left; now apply cause_l|auto].
    - intros c0 tr0 ms0 HP. exact HP.
    - intros now o c0 tr0 ms0 HP Hs Ha. destruct (HP Ha) as [K|K]; [left; now apply cause_l|auto].
    - intros e c0 tr0 ms0 HP Hs Ha. apply alarmed_app in Ha. destruct Ha as [Ha|Ha].
      + destruct (HP Ha) as [K|K]; [left; now apply cause_l|]. right. destruct e; auto; [now right|now left].
      + left. apply cause_r. left. destruct e; try (now apply alarmed_nil in Ha); left; auto.
    - intros c0 tr0 ms0 w1 c' ev w' HP Hb Hs E Ha. apply alarmed_app in Ha. destruct (dispatch_cause _ _ _ _ _ _ Hb Hs E) as [D1 D2].
      destruct Ha as [Ha|Ha].
      + destruct (HP Ha) as [K|K]; [left; now apply cause_l|]. specialize (D1 K). discriminate.
      + destruct (D2 Ha) as [K|[K|[K|[_ K]]]]; try discriminate; auto. left. now apply cause_r.
    - intros c0 tr0 ms0 w1 r0 c' ev w' HP Hb Hs E. destruct (dispatch_cause _ _ _ _ _ _ Hb Hs E) as [D1 D2].
      assert (M : r0 <> DiscardConnection -> alarmed (ms0 ++ dispatch_messages c0 w1) -> cause (tr0 ++ ev)).
      { intros Hr Ha. apply alarmed_app in Ha. destruct Ha as [Ha|Ha].
        - destruct (HP Ha) as [K|K]; [now apply cause_l|]. specialize (D1 K). congruence.
        - destruct (D2 Ha) as [K|[K|[K|[K _]]]]; try congruence. now apply cause_r. }
      destruct r0; auto; [|intros; left]; now apply M.
    - auto.
    - intros r0 c0 tr0 ms0 HQ Hr Ha. destruct r0; auto. easy.
  Qed.
End Causes.
