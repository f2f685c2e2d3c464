(** Messages at level debug. *)
From Verif Require Import ServerHistory.
From Verif Require Import Base BaseLemmas StaticTable IntCodec Huffman DynTable HpackDec HpackEnc Frames FramesProofs Http Conn ConnLemmas SpecConn SpecFrames AccessLog Messages DebugMessages SpecDebug.

Lemma louder_app a b : louder (a ++ b) = louder a ++ louder b.
Proof. apply filter_app. Qed.
Lemma louder_debug t l : louder (debug t :: l) = louder l.
Proof. reflexivity. Qed.
Lemma louder_err t l : louder (err t :: l) = err t :: louder l.
Proof. reflexivity. Qed.
Definition loud (l : list message) : Prop := louder l = l.
Lemma loud_app a b : loud a -> loud b -> loud (a ++ b).
Proof. unfold loud. rewrite louder_app. congruence. Qed.

Lemma loud_padding bits : forall pos, loud (padding_messages bits pos).
Proof. induction bits as [|[] bits IH]; intros pos; cbn [padding_messages]; [reflexivity|apply IH|reflexivity]. Qed.
Lemma loud_huffman root bits : forall current pos, loud (huffman_messages root current bits pos).
Proof.
  induction bits as [|b bits IH]; intros current pos; cbn [huffman_messages]; [reflexivity|].
  destruct current as [|l r v]; [reflexivity|]. destruct (if b then r else l) as [|? ? [?|]]; auto using loud_padding.
Qed.
Lemma loud_limit n : loud (limit_messages n).
Proof. unfold limit_messages. now destruct (string_length_within_limit n). Qed.
Lemma loud_string T r : loud (read_length_and_string_messages T r).
Proof.
  unfold read_length_and_string_messages, read_string_messages. destruct (peek_byte r); [|reflexivity].
  destruct (int_decode 7 r) as [[n|?] r1]; [|reflexivity]. destruct (read_bytes r1 n) as [[data r2]|]; [|reflexivity].
  destruct (negb _); [|apply loud_limit]. apply loud_app; [apply loud_huffman|]. destruct (huffman_decode T data) as [[?|?]| | |]; try reflexivity. apply loud_limit.
Qed.
Lemma loud_lookup what t i : loud (lookup_messages what t i).
Proof. unfold lookup_messages. cbv zeta. destruct (_ <? _); [reflexivity|]. now destruct (_ >=? _). Qed.
Lemma loud_indexed t r : loud (decode_indexed_field_messages t r).
Proof. unfold decode_indexed_field_messages. destruct (int_decode 7 r) as [[n|?] r1]; [|reflexivity]. destruct (_ <? _); [reflexivity|apply loud_lookup]. Qed.
Lemma loud_literal T k t r : loud (decode_literal_field_messages T k t r).
Proof.
  unfold decode_literal_field_messages. destruct (int_decode k r) as [[n|?] r1]; [|reflexivity]. destruct (n =? 0).
  - apply loud_app; [apply loud_string|]. destruct (read_length_and_string T r1) as [[[?|?] ?]| | |]; try reflexivity. apply loud_string.
  - apply loud_app; [apply loud_lookup|]. destruct (read_indexed_header_name t n) as [[?|?]| | |]; try reflexivity. apply loud_string.
Qed.
Lemma loud_size r : loud (decode_size_update_messages r).
Proof. unfold decode_size_update_messages. destruct (int_decode 5 r) as [[n|?] r1]; [|reflexivity]. now destruct (_ >? _). Qed.
Lemma louder_insert t h : louder (insert_debug t h) = [].
Proof. unfold insert_debug. cbv zeta. now destruct (_ >? _). Qed.
Lemma louder_decode_loop T fuel : forall t r, louder (decode_loop_debug T fuel t r) = decode_loop_messages T fuel t r.
Proof.
  induction fuel as [|n IH]; intros t [|b r]; try reflexivity. cbn [decode_loop_debug decode_loop_messages].
  destruct (from_byte b); try reflexivity; rewrite louder_app.
  - rewrite loud_indexed. f_equal. destruct (decode_indexed_field t (b :: r)) as [[[?|?] ?]| | |]; auto.
  - rewrite loud_literal. f_equal. destruct (decode_literal_field T 6 t (b :: r)) as [[[h|?] ?]| | |]; auto.
    destruct (dt_insert t h); auto. now rewrite louder_app, louder_insert, IH.
  - rewrite loud_size. f_equal. destruct (decode_size_update t (b :: r)) as [[[?|?] ?]| | |]; auto.
  - rewrite loud_literal. f_equal. destruct (decode_literal_field T 4 t (b :: r)) as [[[?|?] ?]| | |]; auto.
  - rewrite loud_literal. f_equal. destruct (decode_literal_field T 4 t (b :: r)) as [[[?|?] ?]| | |]; auto.
Qed.
Lemma louder_encode cs hs : forall t, louder (encode_debug cs t hs) = [].
Proof.
  induction hs as [|h hs IH]; intros t; [reflexivity|]. cbn [encode_debug]. destruct (encode_header cs t h) as [[? t1]| | |]; try reflexivity.
  rewrite louder_app, IH, app_nil_r. destruct (find_index _ _); [reflexivity|]. destruct (dt_find t h); [reflexivity|apply louder_insert].
Qed.
Lemma louder_entries hs : forall pos, louder (entries_debug pos hs) = [].
Proof. induction hs as [|h hs IH]; intros pos; [reflexivity|]. apply IH. Qed.
Lemma louder_tables d e : louder (tables_debug d e) = [].
Proof. unfold tables_debug, contents_debug. cbn [Datatypes.app]. rewrite !louder_debug, louder_app, louder_entries. cbn [Datatypes.app]. now rewrite !louder_debug, louder_entries. Qed.
Lemma louder_update s s' : louder (update_debug s s') = [].
Proof. unfold update_debug. now destruct (same_state s s'). Qed.
Lemma louder_fields hs : louder (fields_debug hs) = [].
Proof. induction hs as [|h hs IH]; [reflexivity|exact IH]. Qed.
Lemma louder_fill rd : forall c, louder (fill_debug rd c) = fill_messages rd c.
Proof.
  induction rd as [|[now [o|e]] rd IH]; intros c; cbn [fill_debug fill_messages]; (destruct (_ >=? _); [reflexivity|]); auto.
  destruct e; try reflexivity; rewrite ?louder_debug, ?louder_err, louder_update; reflexivity.
Qed.
Lemma louder_flush wr c : louder (flush_debug wr c) = flush_messages wr c.
Proof.
  unfold flush_debug. rewrite louder_app.
  assert (L : loud (flush_messages wr c)) by (unfold flush_messages, loud; destruct (c_wbuf c); [reflexivity|]; destruct wr as [|[? [| |[]]] ?]; reflexivity).
  rewrite L. destruct (flush_messages wr c); [reflexivity|]. now rewrite louder_update, app_nil_r.
Qed.
Lemma louder_preface c : louder (preface_debug c) = preface_messages c.
Proof.
  unfold preface_debug, preface_messages. destruct (read_preface c) as [[[] ?] ?]; rewrite louder_app; try reflexivity.
  rewrite louder_debug, louder_update. reflexivity.
Qed.
Lemma louder_close c : louder (close_debug c) = close_messages c.
Proof. unfold close_debug, close_messages. destruct (c_state c); reflexivity. Qed.

Section Conn.
  Variable W : Type.
  Variable app : request -> W -> W * app_answer.
  Variable cs : bool.
  Variable T : tree.
  Variable says : request -> W -> list message.
  Variable thrown : request -> W -> bytes.
  Variable unhandled : conn -> W -> bytes.
  Notation lsays := (fun rq w => louder (says rq w)).

  Lemma louder_request hs w : louder (request_messages W app says thrown hs w) = request_messages W app lsays thrown hs w.
  Proof.
    unfold request_messages. destruct (get_header hs (str ":path")); [|reflexivity]. destruct (get_header hs (str ":method")); [|reflexivity].
    rewrite louder_app. f_equal. destruct (snd _); reflexivity.
  Qed.
  Lemma louder_sent r : louder (sent_messages r) = sent_messages r.
  Proof. unfold sent_messages. destruct (rs_body r); reflexivity. Qed.

  Lemma louder_frame s f d e w : louder (frame_debug W app cs T says thrown s f d e w) = frame_messages W app cs T lsays thrown f d e w.
  Proof.
    unfold frame_debug, frame_messages. destruct (_ =? FRAME_TYPE_SETTINGS).
    { rewrite louder_debug. destruct (has_flag f 1); [reflexivity|]. destruct (negb _); [|reflexivity]. now rewrite louder_err, louder_update. }
    destruct (_ =? FRAME_TYPE_HEADERS).
    { rewrite !louder_debug, louder_app, louder_tables. cbn [Datatypes.app].
      destruct (headers_block f) as [b| | |]; try reflexivity. unfold decode_debug, decode_messages. rewrite louder_app, louder_decode_loop. f_equal.
      destruct (hpack_decode T d b) as [[[hs|?] d']| | |]; try reflexivity; [|apply louder_update].
      rewrite !louder_app, louder_fields, louder_request. cbn [Datatypes.app]. f_equal.
      destruct (process_request W app hs w) as [[w' [r|]] ev]; [|reflexivity]. rewrite louder_app, louder_encode. cbn [Datatypes.app].
      destruct (hpack_encode cs e (rs_headers r)) as [[? e']| | |]; try reflexivity. now rewrite louder_app, louder_tables, louder_sent. }
    destruct (_ =? FRAME_TYPE_WINDOW_UPDATE); [rewrite louder_debug; now destruct (read_window_update f)|].
    destruct (_ =? FRAME_TYPE_GOAWAY); [rewrite louder_debug; apply louder_update|reflexivity].
  Qed.
  Lemma louder_try c w : louder (try_read_debug W app cs T says thrown c w) = try_read_messages W app cs T lsays thrown c w.
  Proof.
    unfold try_read_debug, try_read_messages. destruct (_ <? 9); [reflexivity|]. destruct (fh_parse _) as [h| | |]; try reflexivity.
    rewrite louder_debug. destruct (_ >? _).
    { change (warn ?t :: ?l) with ([warn t] ++ l). rewrite !louder_app, louder_update. reflexivity. }
    destruct (_ <? _); [reflexivity|]. cbv zeta. rewrite louder_app, louder_frame.
    match goal with |- _ ++ louder ?x = _ => assert (E : louder x = []) end.
    { destruct (process_frame _ _ _ _ _ _ _ _) as [[[[[[]]]]]| | |]; reflexivity. }
    now rewrite E, app_nil_r.
  Qed.
  Lemma louder_dispatch c w : louder (dispatch_debug W app cs T says thrown c w) = dispatch_messages W app cs T lsays thrown c w.
  Proof.
    unfold dispatch_debug, dispatch_messages. destruct (c_state c); try reflexivity.
    - rewrite louder_app, louder_preface. f_equal. destruct (read_preface c) as [[[] ?] ?]; try reflexivity. apply louder_try.
    - apply louder_try.
    - now rewrite louder_err, louder_close.
  Qed.
  Lemma louder_internal fuel : forall s c w,
    louder (internal_debug W app cs T says thrown unhandled fuel s c w) = internal_messages W app cs T lsays thrown unhandled fuel s c w.
  Proof.
    induction fuel as [|n IH]; intros s c w; [reflexivity|]. cbn [internal_debug internal_messages].
    destruct (match c_state c with AwaitingHandshake => handle_handshake (sc_hs s) c | _ => (None, c, [], sc_hs s) end) as [[[r c0] ev0] hs'].
    destruct r; [reflexivity|]. destruct (flush_write_buffer (sc_wr s) c0) as [[c1 ev1] wr'].
    rewrite !louder_app, louder_update, louder_flush. cbn [Datatypes.app]. f_equal. destruct (c_wbuf c1); [|reflexivity].
    destruct (fill_read_buffer (sc_rd s) c1) as [[c2 ev2] rd']. rewrite !louder_app, louder_fill, louder_dispatch. do 2 f_equal.
    destruct (Conn.dispatch W app cs T c2 w) as [[[[[] c3] ev3] w']| | |]; try reflexivity; [apply IH|]. now rewrite louder_err, louder_update.
  Qed.

  Lemma verbose_narrated others t0 w0 A r c tr w ms : verbose W app cs T says thrown unhandled others t0 w0 A r c tr w ms ->
    narrated W app cs T lsays thrown unhandled others t0 w0 A r c tr w (louder ms).
  Proof.
    induction 1 as [|r c tr w w' ms _ IH Ho|r c tr w s r' c' ev w' ms _ IH Hr Hs Ha Hp]; [constructor|econstructor; eassumption|].
    rewrite louder_app. unfold process_debug. rewrite louder_internal. eapply narrated_process; eassumption.
  Qed.
End Conn.

(** ** Requests: their fields and what the application says about them *)
Lemma shows_left a b hs : shows a hs -> shows (a ++ b) hs.
Proof. intros (x & y & ->). exists x, (y ++ b). now rewrite <- !app_assoc. Qed.
Lemma shows_right a b hs : shows b hs -> shows (a ++ b) hs.
Proof. intros (x & y & ->). exists (a ++ x), y. now rewrite <- !app_assoc. Qed.
(** Events that say nothing of requests. *)
Definition plain (e : event) : Prop := match e with EvRequest _ _ | EvLog _ _ _ => False | _ => True end.

Section Fields.
  Variable W : Type.
  Variable app : request -> W -> W * app_answer.
  Variable cs : bool.
  Variable T : tree.
  Variable says : request -> W -> list message.
  Variable thrown : request -> W -> bytes.
  Variable unhandled : conn -> W -> bytes.
  Variable kind : W -> Prop.
  Hypothesis keeps : forall rq w, kind w -> kind (fst (app rq w)).

  Lemma handled_kind l : forall w w', handled eq app w l w' -> kind w -> kind w'.
  Proof.
    intros w w' H Hw. induction H as [|l w1 w2 _ IH E|l w1 rq w2 r _ IH E|l w1 rq w2 _ IH E|l w1 rq w2 _ IH E]; [exact Hw|now subst|..];
      pose proof (keeps rq w1 IH) as K; rewrite E in K; exact K.
  Qed.
  Definition announced (ms : list message) (e : event) : Prop :=
    match e with EvRequest rq a => treated app says kind ms rq a | EvLog hs _ _ => shows ms hs | _ => True end.
  Lemma treated_left a b rq r : treated app says kind a rq r -> treated app says kind (a ++ b) rq r.
  Proof. intros (w & x & y & K & -> & H). exists w, x, (y ++ b). rewrite <- !app_assoc. auto. Qed.
  Lemma treated_right a b rq r : treated app says kind b rq r -> treated app says kind (a ++ b) rq r.
  Proof. intros (w & x & y & K & -> & H). exists w, (a ++ x), y. rewrite <- !app_assoc. auto. Qed.
  Definition covers (ms : list message) (ev : trace) : Prop := Forall (announced ms) ev.
  Lemma covers_left a b ev : covers a ev -> covers (a ++ b) ev.
  Proof. apply Forall_impl. intros e. destruct e; cbn; auto using shows_left, treated_left. Qed.
  Lemma covers_right a b ev : covers b ev -> covers (a ++ b) ev.
  Proof. apply Forall_impl. intros e. destruct e; cbn; auto using shows_right, treated_right. Qed.
  Lemma covers_app a b x y : covers a x -> covers b y -> covers (a ++ b) (x ++ y).
  Proof. intros Ha Hb. apply Forall_app. split; [apply covers_left, Ha|apply covers_right, Hb]. Qed.
  Lemma covers_cons m a x : covers a x -> covers (m :: a) x.
  Proof. exact (covers_right [m] a x). Qed.
  Lemma covers_plain ms ev : Forall plain ev -> covers ms ev.
  Proof. apply Forall_impl. intros e. destruct e; cbn; tauto. Qed.

  Lemma covers_frame s f d e w fe d' e' w' ev : kind w -> process_frame W app cs T f d e w = Ret (fe, d', e', w', ev) ->
    covers (frame_debug W app cs T says thrown s f d e w) ev.
  Proof.
    intros Hk. unfold process_frame, frame_debug. destruct (_ =? FRAME_TYPE_SETTINGS).
    { intros H. apply covers_plain. destruct (has_flag f 1); [injection H as <- <- <- <- <-; constructor|].
      destruct (read_settings f) as [[?|?]| | |]; cbn [obind] in H; [| |discriminate H..]; injection H as <- <- <- <- <-; repeat constructor. }
    destruct (_ =? FRAME_TYPE_HEADERS).
    - destruct (headers_block f) as [b| | |]; cbn [obind]; [|discriminate..].
      destruct (hpack_decode T d b) as [[[hs|?] d2]| | |]; [|intros [= <- <- <- <- <-]; constructor|intros [= <- <- <- <- <-]; constructor|discriminate..].
      intros H. apply covers_cons, covers_cons, covers_right, covers_right. set (more := match process_request W app hs w with (_, Some _, _) => _ | _ => _ end). clearbody more.
      assert (S : shows (fields_debug hs ++ request_messages W app says thrown hs w ++ more) hs) by (exists [], (request_messages W app says thrown hs w ++ more); reflexivity).
      destruct (process_request W app hs w) as [[w1 resp] ev0] eqn:Er.
      assert (C : covers (fields_debug hs ++ request_messages W app says thrown hs w ++ more) ev0).
      { unfold process_request in Er. unfold request_messages. destruct (get_header hs (str ":path")) as [p|]; [|injection Er as <- <- <-; constructor].
        destruct (get_header hs (str ":method")) as [m|]; [|injection Er as <- <- <-; constructor]. cbv zeta in *.
        assert (G : forall a, answer_of (snd (app (Request m p hs) w)) = a -> forall l, treated app says kind (fields_debug hs ++ (says (Request m p hs) w ++ l) ++ more) (Request m p hs) a).
        { intros a <- l. exists w, [], (l ++ more). split; [exact Hk|]. split; [|reflexivity]. rewrite <- !app_assoc. reflexivity. }
        destruct (app (Request m p hs) w) as [w2 []]; injection Er as <- <- <-; (constructor; [|constructor]); apply G; reflexivity. }
      destruct resp as [rs|]; [|injection H as <- <- <- <- <-; exact C].
      destruct (hpack_encode cs e (rs_headers rs)) as [[b1 e1]| | |]; [|injection H as <- <- <- <- <-; exact C|discriminate H..].
      destruct (write_data_response _ _ _) as [data| | |]; cbn [obind] in H; [|discriminate H..]. injection H as <- <- <- <- <-.
      apply Forall_app. split; [exact C|]. repeat constructor. exact S.
    - destruct (_ =? FRAME_TYPE_WINDOW_UPDATE); [destruct (read_window_update f); cbn [obind]; [|discriminate..]|destruct (_ =? FRAME_TYPE_GOAWAY)];
        intros [= <- <- <- <- <-]; constructor.
  Qed.
  Lemma covers_try c w v c' ev w' : kind w -> try_read_frame W app cs T c w = Ret (v, c', ev, w') -> covers (try_read_debug W app cs T says thrown c w) ev.
  Proof.
    intros Hk. unfold try_read_frame, try_read_debug. destruct (_ <? 9); [intros [= <- <- <- <-]; constructor|].
    destruct (fh_parse _) as [h| | |]; cbn [obind]; [|discriminate..]. destruct (_ >? _); [intros [= <- <- <- <-]; constructor|]. cbv zeta.
    destruct (_ <? _); [intros [= <- <- <- <-]; constructor|].
    destruct (process_frame _ _ _ _ _ _ _ _) as [[[[[fe d] e] w1] ev1]| | |] eqn:E; cbn [obind]; [|discriminate..].
    intros H. apply covers_cons, covers_left. assert (ev = ev1) as -> by (destruct fe; congruence). eapply covers_frame; eauto.
  Qed.
  Lemma covers_dispatch c w v c' ev w' : kind w -> Conn.dispatch W app cs T c w = Ret (v, c', ev, w') -> covers (dispatch_debug W app cs T says thrown c w) ev.
  Proof.
    intros Hk. unfold Conn.dispatch, dispatch_debug. destruct (c_state c).
    - intros [= <- <- <- <-]. constructor.
    - destruct (read_preface c) as [[[] c1] ev1] eqn:Er; (assert (Forall plain ev1) by
        (revert Er; unfold read_preface; destruct (_ <? _); [|destruct (bytes_eqb _ _)]; intros E; inversion E; repeat constructor)).
      + destruct (try_read_frame W app cs T c1 w) as [[[[v2 c2] ev2] w2]| | |] eqn:Et; cbn [obind]; [|discriminate..].
        intros [= <- <- <- <-]. apply covers_app; [now apply covers_plain|]. eapply covers_try; eauto.
      + intros [= <- <- <- <-]. now apply covers_plain.
      + intros [= <- <- <- <-]. now apply covers_plain.
    - now apply covers_try.
    - intros [= <- <- <- <-]. repeat constructor.
    - intros H. apply covers_plain. destruct (close c) as [c1 ev1] eqn:Ec. injection H as <- <- <- <-.
      revert Ec. unfold close. destruct (c_state c); intros [= <- <-]; repeat constructor.
    - intros [= <- <- <- <-]. constructor.
  Qed.
  Lemma fill_plain rd : forall c c' ev rd', fill_read_buffer rd c = (c', ev, rd') -> Forall plain ev.
  Proof.
    induction rd as [|[now [o|e]] rd IH]; intros c c' ev rd'; cbn [fill_read_buffer]; (destruct (_ >=? _); [intros [= <- <- <-]; constructor|]).
    - intros [= <- <- <-]. constructor.
    - destruct (fill_read_buffer rd _) as [[c2 ev2] rd2] eqn:E. intros [= <- <- <-]. constructor; [exact I|eauto].
    - intros [= <- <- <-]. repeat constructor.
  Qed.
  Lemma flush_plain wr c c' ev wr' : flush_write_buffer wr c = (c', ev, wr') -> Forall plain ev.
  Proof.
    unfold flush_write_buffer. destruct (c_wbuf c); [intros [= <- <- <-]; constructor|].
    destruct wr as [|[? [?|?|?]] ?]; intros [= <- <- <-]; repeat constructor.
  Qed.
  Lemma covers_internal fuel : forall s c w v c' ev w', kind w -> internal_process W app cs T fuel s c w = Ret (v, c', ev, w') ->
    covers (internal_debug W app cs T says thrown unhandled fuel s c w) ev.
  Proof.
    induction fuel as [|n IH]; intros s c w v c' ev w' Hk; [discriminate|]. cbn [internal_process internal_debug].
    destruct (match c_state c with AwaitingHandshake => handle_handshake (sc_hs s) c | _ => (None, c, [], sc_hs s) end) as [[[r c0] ev0] hs'] eqn:Eh.
    assert (H0 : Forall plain ev0).
    { revert Eh. unfold handle_handshake. destruct (c_state c); try (intros [= <- <- <- <-]; constructor; fail).
      destruct (sc_hs s) as [|[? [|[]]] ?]; intros [= <- <- <- <-]; repeat constructor. }
    destruct r; [intros [= <- <- <- <-]; now apply covers_plain|].
    destruct (flush_write_buffer (sc_wr s) c0) as [[c1 ev1] wr'] eqn:Ef. apply flush_plain in Ef.
    destruct (c_wbuf c1) eqn:Ew; [|intros [= <- <- <- <-]; apply covers_plain, Forall_app; auto].
    destruct (fill_read_buffer (sc_rd s) c1) as [[c2 ev2] rd'] eqn:El. apply fill_plain in El.
    destruct (Conn.dispatch W app cs T c2 w) as [[[[v3 c3] ev3] w3]| | |] eqn:Ed; cbn [obind]; [|discriminate..]. pose proof (covers_dispatch _ _ _ _ _ _ Hk Ed) as Cd. apply dispatch_asks in Ed.
    intros H. apply covers_right, covers_right, covers_right.
    assert (K : forall y l, covers (dispatch_debug W app cs T says thrown c2 w ++ l) y -> covers (dispatch_debug W app cs T says thrown c2 w ++ l) (ev0 ++ ev1 ++ ev2 ++ y)).
    { intros y l Hy. apply Forall_app; split; [now apply covers_plain|]. apply Forall_app; split; [now apply covers_plain|]. apply Forall_app; split; [now apply covers_plain|exact Hy]. }
    destruct v3.
    - destruct (internal_process W app cs T n _ c3 w3) as [[[[v4 c4] ev4] w4]| | |] eqn:Ei; cbn [obind] in H; [|discriminate H..].
      injection H as <- <- <- <-. apply K. apply covers_app; [exact Cd|]. eapply IH; [|exact Ei]. exact (handled_kind _ _ _ Ed Hk).
    - injection H as <- <- <- <-. apply K. now apply covers_left.
    - injection H as <- <- <- <-. apply K. now apply covers_left.
  Qed.
  Lemma verbose_covers (others : W -> W -> Prop) t0 w0 A r c tr w ms : (forall w w', others w w' -> kind w -> kind w') -> kind w0 ->
    verbose W app cs T says thrown unhandled others t0 w0 A r c tr w ms -> covers ms tr /\ kind w.
  Proof.
    intros Ko K0. induction 1 as [|r c tr w w' ms _ [IH Kw] Ho|r c tr w s r' c' ev w' ms _ [IH Kw] Hr Hs Ha Hp]; [split; [constructor|exact K0]|split; [exact IH|eauto]|].
    unfold process in Hp.
    destruct (internal_process _ _ _ _ _ _ _ _) as [[[[v c1] ev1] w1]| | |] eqn:E; cbn [obind] in Hp; [|discriminate Hp..].
    pose proof E as E2. apply loop_asks in E2. apply covers_internal in E; [|exact Kw].
    destruct v; try discriminate Hp; injection Hp as <- <- <- <-; (split; [apply covers_app; [exact IH|exact E]|exact (handled_kind _ _ _ E2 Kw)]).
  Qed.
End Fields.

(** ** States *)
Definition aside (ms : list message) : Prop := Forall (fun m => ~ about_states m) ms.
Lemma life_app a x b y c : life a x b -> life b y c -> life a (x ++ y) c.
Proof. induction 1; intros Hy; cbn [Datatypes.app]; [exact Hy|apply life_other; auto|apply life_change; auto]. Qed.
Lemma life_aside s ms : aside ms -> life s ms s.
Proof. induction 1; [constructor|now apply life_other]. Qed.
Lemma loud_aside ms : loud ms -> aside ms.
Proof.
  unfold loud, aside. induction ms as [|m ms IH]; intros H; [constructor|]. cbn [louder filter] in H.
  assert (L : lenZ (louder ms) <= lenZ ms).
  { clear. induction ms as [|m ms IH]; cbn [louder filter]; [lia|]. destruct (m_level m); rewrite ?lenZ_cons; unfold louder in *; lia. }
  assert (m_level m <> LDebug /\ louder ms = ms) as [Hm Hl].
  { destruct (m_level m); try (injection H as H; split; [discriminate|exact H]);
      (exfalso; apply (f_equal lenZ) in H; rewrite lenZ_cons in H; unfold louder in L; lia). }
  constructor; [|auto]. intros [E _]. congruence.
Qed.
Lemma not_states t : nth_error t 0 <> Some 99 -> ~ about_states (debug t).
Proof. intros H (_ & rest & E). cbn [m_text debug] in E. rewrite E in H. now apply H. Qed.
Lemma aside_debug t l : nth_error t 0 <> Some 99 -> aside l -> aside (debug t :: l).
Proof. intros H. constructor; [now apply not_states|assumption]. Qed.
Lemma aside_app a b : aside a -> aside b -> aside (a ++ b).
Proof. intros. now apply Forall_app. Qed.
Lemma aside_nil : aside [].
Proof. constructor. Qed.
Lemma aside_err t l : aside l -> aside (err t :: l).
Proof. constructor; [|assumption]. now intros [E _]. Qed.
Lemma life_debug s t l s' : nth_error t 0 <> Some 99 -> life s l s' -> life s (debug t :: l) s'.
Proof. intros H. apply life_other. now apply not_states. Qed.
Lemma life_err s t l s' : life s l s' -> life s (err t :: l) s'.
Proof. apply life_other. now intros [E _]. Qed.
Lemma life_before s a l s' : aside a -> life s l s' -> life s (a ++ l) s'.
Proof. intros Ha. apply life_app. now apply life_aside. Qed.

Lemma aside_insert t h : aside (insert_debug t h).
Proof. unfold insert_debug. cbv zeta. destruct (_ >? _); (apply aside_debug; [discriminate|apply aside_nil]). Qed.
Lemma aside_decode T fuel : forall t r, aside (decode_loop_debug T fuel t r).
Proof.
  induction fuel as [|n IH]; intros t [|b r]; try apply aside_nil. cbn [decode_loop_debug].
  destruct (from_byte b); try apply aside_app; try (apply loud_aside; solve [apply loud_indexed | apply loud_literal | apply loud_size]).
  - destruct (decode_indexed_field t (b :: r)) as [[[?|?] ?]| | |]; auto using aside_nil.
  - destruct (decode_literal_field T 6 t (b :: r)) as [[[h|?] ?]| | |]; auto using aside_nil.
    destruct (dt_insert t h); auto using aside_nil. apply aside_app; auto using aside_insert.
  - destruct (decode_size_update t (b :: r)) as [[[?|?] ?]| | |]; auto using aside_nil.
  - destruct (decode_literal_field T 4 t (b :: r)) as [[[?|?] ?]| | |]; auto using aside_nil.
  - destruct (decode_literal_field T 4 t (b :: r)) as [[[?|?] ?]| | |]; auto using aside_nil.
  - apply aside_err, aside_nil.
Qed.
Lemma aside_encode cs hs : forall t, aside (encode_debug cs t hs).
Proof.
  induction hs as [|h hs IH]; intros t; [apply aside_nil|]. cbn [encode_debug]. destruct (encode_header cs t h) as [[? t1]| | |]; try apply aside_nil.
  apply aside_app; [|apply IH]. destruct (find_index _ _); [apply aside_nil|]. destruct (dt_find t h); [apply aside_nil|apply aside_insert].
Qed.
Lemma aside_entries hs : forall pos, aside (entries_debug pos hs).
Proof. induction hs as [|h hs IH]; intros pos; [apply aside_nil|]. cbn [entries_debug]. apply aside_debug; [discriminate|apply IH]. Qed.
Lemma aside_tables d e : aside (tables_debug d e).
Proof.
  unfold tables_debug, contents_debug. apply aside_debug; [discriminate|]. cbn [Datatypes.app]. apply aside_debug; [discriminate|].
  apply aside_app; [apply aside_entries|]. apply aside_debug; [discriminate|]. apply aside_debug; [discriminate|]. apply aside_entries.
Qed.
Lemma aside_fields hs : aside (fields_debug hs).
Proof. induction hs as [|h hs IH]; [apply aside_nil|]. apply aside_debug; [discriminate|exact IH]. Qed.
Notation name := state_to_string.
Definition shaken (c : conn) : Prop := c_state c <> AwaitingHandshake.
Lemma name_inj s s' : name s = name s' -> s = s'.
Proof. destruct s, s'; (reflexivity || discriminate). Qed.
Lemma life_shaken s ms s' : life (name s) ms (name s') -> s <> AwaitingHandshake -> s' <> AwaitingHandshake.
Proof.
  assert (H : forall a b, life a ms b -> a <> name AwaitingHandshake -> b <> name AwaitingHandshake).
  { clear. induction 1 as [|? ? ? ? _ _ IH|? ? ? ? F _ IH]; auto. intros _. apply IH. inversion F; discriminate. }
  intros L Hs ->. apply (H _ _ L); [|reflexivity]. intros E. now apply Hs, name_inj.
Qed.
Lemma life_update s s' : (s <> s' -> follows (name s) (name s')) -> life (name s) (update_debug s s') (name s').
Proof.
  intros F. unfold update_debug, same_state. destruct (bytes_eqb (name s) (name s')) eqn:E.
  - apply bytes_eqb_eq in E. rewrite E. constructor.
  - apply bytes_eqb_neq in E. apply (life_change (name s) (name s')); [|constructor]. apply F. congruence.
Qed.
Lemma life_error s : s <> AwaitingHandshake -> life (name s) (update_debug s StProtocolError) (name StProtocolError).
Proof. intros H. apply life_update. intros N. apply error; intros E; [apply H|apply N]; now apply name_inj. Qed.
Lemma life_closed s : s <> AwaitingHandshake -> life (name s) (update_debug s ClientClosed) (name ClientClosed).
Proof. intros H. apply life_update. intros N. apply closed; intros E; [apply H|apply N]; now apply name_inj. Qed.
Lemma life_fill rd : forall c c' ev rd', shaken c -> fill_read_buffer rd c = (c', ev, rd') -> life (name (c_state c)) (fill_debug rd c) (name (c_state c')).
Proof.
  induction rd as [|[now [o|e]] rd IH]; intros c c' ev rd' Hs; cbn [fill_read_buffer fill_debug];
    (destruct (_ >=? _); [intros [= <- <- <-]; apply life_debug; [discriminate|constructor]|]).
  - intros [= <- <- <-]. constructor.
  - destruct (fill_read_buffer rd _) as [[c2 ev2] rd2] eqn:E. intros [= <- <- <-]. apply IH in E; [|exact Hs]. exact E.
  - intros [= <- <- <-]. destruct e; cbn [set_state c_state].
    + constructor.
    + apply life_err. constructor.
    + apply life_debug; [discriminate|]. now apply life_closed.
    + apply life_err. now apply life_error.
    + apply life_err. constructor.
Qed.
Lemma life_flush wr c c' ev wr' : shaken c -> flush_write_buffer wr c = (c', ev, wr') -> life (name (c_state c)) (flush_debug wr c) (name (c_state c')).
Proof.
  intros Hs. unfold flush_write_buffer, flush_debug, flush_messages. destruct (c_wbuf c); [intros [= <- <- <-]; constructor|].
  destruct wr as [|[? [?|?|[]]] ?]; intros [= <- <- <-]; cbn [Datatypes.app c_state set_state];
    first [apply life_err; now apply life_error|constructor].
Qed.
Lemma life_preface c x c' ev : c_state c = AwaitingPreface -> read_preface c = (x, c', ev) -> life (name (c_state c)) (preface_debug c) (name (c_state c')).
Proof.
  unfold preface_debug, preface_messages. intros Ec E. rewrite E. revert E. unfold read_preface. rewrite Ec.
  destruct (_ <? _); [intros [= <- <- <-]; rewrite Ec; constructor|]. destruct (bytes_eqb _ _); intros [= <- <- <-]; cbn [Datatypes.app discard set_state c_state enqueue].
  - apply life_other; [now intros [E _]|]. apply life_debug; [discriminate|]. apply life_update. intros _. apply after_preface.
  - rewrite Ec. apply life_err. constructor.
Qed.
Lemma life_close c c' ev : c_state c = StProtocolError -> close c = (c', ev) -> life (name (c_state c)) (close_debug c) (name (c_state c')).
Proof.
  unfold close, close_debug, close_messages. intros E. rewrite !E. intros [= <- <-]. cbn [Datatypes.app set_state c_state enqueue].
  apply life_debug; [discriminate|]. apply life_update. intros _. apply after_error.
Qed.

Section States.
  Variable W : Type.
  Variable app : request -> W -> W * app_answer.
  Variable cs : bool.
  Variable T : tree.
  Variable says : request -> W -> list message.
  Variable thrown : request -> W -> bytes.
  Variable unhandled : conn -> W -> bytes.
  Hypothesis Hsays : forall rq w, aside (says rq w).

  Lemma aside_request hs w : aside (request_messages W app says thrown hs w).
  Proof.
    unfold request_messages. destruct (get_header hs (str ":path")); [|apply aside_err, aside_nil]. destruct (get_header hs (str ":method")); [|apply aside_err, aside_nil].
    apply aside_app; [apply Hsays|]. destruct (snd _); try apply aside_nil. apply aside_err, aside_nil.
  Qed.
  Lemma life_frame s f d e w fe d' e' w' ev : s <> AwaitingHandshake -> process_frame W app cs T f d e w = Ret (fe, d', e', w', ev) ->
    life (name s) (frame_debug W app cs T says thrown s f d e w) (name (match fe with FrameState s => s | _ => s end)).
  Proof.
    intros Hn. unfold process_frame, frame_debug. destruct (_ =? FRAME_TYPE_SETTINGS).
    { unfold read_settings. intros H. apply life_debug; [discriminate|]. destruct (has_flag f 1).
      { injection H as <- <- <- <- <-. apply life_debug; [discriminate|constructor]. }
      destruct (negb _); cbn [obind] in H; [injection H as <- <- <- <- <-; now apply life_err, life_error|].
      destruct (read_entries _ _); cbn [obind] in H; [|discriminate H..]. injection H as <- <- <- <- <-. apply life_debug; [discriminate|constructor]. }
    destruct (_ =? FRAME_TYPE_HEADERS).
    - intros H. apply life_debug; [discriminate|]. apply life_debug; [discriminate|]. apply life_before; [apply aside_tables|].
      destruct (headers_block f) as [b| | |]; cbn [obind] in H; [|discriminate H..]. apply life_before; [apply aside_decode|].
      destruct (hpack_decode T d b) as [[[hs|?] d2]| | |]; [|injection H as <- <- <- <- <-; now apply life_error|injection H as <- <- <- <- <-; constructor|discriminate H..].
      apply life_before; [apply aside_fields|]. apply life_before; [apply aside_request|].
      destruct (process_request W app hs w) as [[w1 [rs|]] ev0]; [|injection H as <- <- <- <- <-; constructor].
      apply life_before; [apply aside_encode|].
      destruct (hpack_encode cs e (rs_headers rs)) as [[b1 e1]| | |]; [|injection H as <- <- <- <- <-; constructor|discriminate H..].
      destruct (write_data_response _ _ _) as [data| | |]; cbn [obind] in H; [|discriminate H..]. injection H as <- <- <- <- <-.
      apply life_before; [apply aside_tables|]. apply life_aside, loud_aside. unfold sent_messages, loud. destruct (rs_body rs); reflexivity.
    - destruct (_ =? FRAME_TYPE_WINDOW_UPDATE).
      { intros H. apply life_debug; [discriminate|]. destruct (read_window_update f); cbn [obind] in H; [|discriminate H..].
        injection H as <- <- <- <- <-. apply life_debug; [discriminate|constructor]. }
      destruct (_ =? FRAME_TYPE_GOAWAY); intros [= <- <- <- <- <-].
      + apply life_debug; [discriminate|]. now apply life_closed.
      + apply life_debug; [discriminate|constructor].
  Qed.
  Lemma life_try c w v c' ev w' : shaken c -> try_read_frame W app cs T c w = Ret (v, c', ev, w') ->
    life (name (c_state c)) (try_read_debug W app cs T says thrown c w) (name (c_state c')).
  Proof.
    assert (Q : forall s, life s [processed] s) by (intros s; apply life_debug; [discriminate|constructor]).
    intros Hn. unfold try_read_frame, try_read_debug. destruct (_ <? 9); [intros [= <- <- <- <-]; constructor|].
    destruct (fh_parse _) as [h| | |]; cbn [obind]; [|discriminate..]. intros H. apply life_debug; [discriminate|]. destruct (_ >? _).
    { injection H as <- <- <- <-. apply life_other; [now intros [E _]|]. eapply life_app; [now apply life_error|apply Q]. }
    cbv zeta in *. destruct (_ <? _); [injection H as <- <- <- <-; constructor|].
    destruct (process_frame _ _ _ _ _ _ _ _) as [[[[[fe d] e] w1] ev1]| | |] eqn:E; cbn [obind] in *; [|discriminate H..].
    eapply life_app; [eapply life_frame; [exact Hn|exact E]|]. destruct fe; injection H as <- <- <- <-; cbn [c_state discard]; first [apply Q|constructor].
  Qed.
  Lemma life_dispatch c w v c' ev w' : shaken c -> Conn.dispatch W app cs T c w = Ret (v, c', ev, w') ->
    life (name (c_state c)) (dispatch_debug W app cs T says thrown c w) (name (c_state c')).
  Proof.
    intros Hn. unfold Conn.dispatch, dispatch_debug. destruct (c_state c) eqn:Es.
    - now destruct Hn.
    - destruct (read_preface c) as [[x c1] ev1] eqn:Er. pose proof (life_preface _ _ _ _ Es Er) as P. rewrite Es in P. destruct x.
      + destruct (try_read_frame W app cs T c1 w) as [[[[v2 c2] ev2] w2]| | |] eqn:Et; cbn [obind]; [|discriminate..].
        intros [= <- <- <- <-]. eapply life_app; [exact P|]. eapply life_try; [|exact Et]. apply (life_shaken _ _ _ P). discriminate.
      + intros [= <- <- <- <-]. now rewrite app_nil_r.
      + intros [= <- <- <- <-]. now rewrite app_nil_r.
    - intros H. apply life_try in H; [|exact Hn]. now rewrite Es in H.
    - intros [= <- <- <- <-]. apply life_debug; [discriminate|]. now apply (life_closed Closing).
    - destruct (close c) as [c1 ev1] eqn:Ec. intros [= <- <- <- <-]. apply life_err. apply life_close in Ec; [|exact Es]. now rewrite Es in Ec.
    - intros [= <- <- <- <-]. rewrite Es. constructor.
  Qed.
  Lemma life_internal fuel : forall s c w v c' ev w', internal_process W app cs T fuel s c w = Ret (v, c', ev, w') ->
    life (name (c_state c)) (internal_debug W app cs T says thrown unhandled fuel s c w)
      (name (match v with Exception => StProtocolError | _ => c_state c' end)).
  Proof.
    induction fuel as [|n IH]; intros s c w v c' ev w'; [discriminate|]. cbn [internal_process internal_debug].
    destruct (match c_state c with AwaitingHandshake => handle_handshake (sc_hs s) c | _ => (None, c, [], sc_hs s) end) as [[[r c0] ev0] hs'] eqn:Eh.
    destruct r.
    { assert (c0 = c) as ->.
      { revert Eh. unfold handle_handshake. destruct (c_state c); try discriminate. destruct (sc_hs s) as [|[? [|[]]] ?]; now intros [= <- <- <- <-]. }
      intros [= <- <- <- <-]. constructor. }
    assert (L0 : life (name (c_state c)) (update_debug (c_state c) (c_state c0)) (name (c_state c0)) /\ shaken c0).
    { revert Eh. unfold handle_handshake, shaken. destruct (c_state c) eqn:Es.
      2-6: intros [= <- <- <-]; rewrite Es; split; [|discriminate]; apply life_update; intros N; now destruct N.
      destruct (sc_hs s) as [|[? [|[]]] ?]; intros [= <- <- <-]; cbn [set_state c_state]; (split; [|discriminate]);
        apply (life_update AwaitingHandshake AwaitingPreface); intros _; constructor. }
    destruct L0 as [L0 N0].
    destruct (flush_write_buffer (sc_wr s) c0) as [[c1 ev1] wr'] eqn:Ef. apply life_flush in Ef; [|exact N0].
    intros H. eapply life_app; [exact L0|]. eapply life_app; [exact Ef|]. clear L0.
    destruct (c_wbuf c1) eqn:Ew; [|injection H as <- <- <- <-; constructor].
    assert (N1 : shaken c1) by now apply (life_shaken _ _ _ Ef). clear Ef N0.
    destruct (fill_read_buffer (sc_rd s) c1) as [[c2 ev2] rd'] eqn:El. apply life_fill in El; [|exact N1]. eapply life_app; [exact El|].
    assert (N2 : shaken c2) by now apply (life_shaken _ _ _ El). clear El N1.
    destruct (Conn.dispatch W app cs T c2 w) as [[[[v3 c3] ev3] w3]| | |] eqn:Ed; cbn [obind] in H; [|discriminate H..].
    apply life_dispatch in Ed; [|exact N2]. eapply life_app; [exact Ed|]. assert (N3 : shaken c3) by now apply (life_shaken _ _ _ Ed). clear Ed N2. destruct v3.
    - destruct (internal_process W app cs T n _ c3 w3) as [[[[v4 c4] ev4] w4]| | |] eqn:Ei; cbn [obind] in H; [|discriminate H..].
      injection H as <- <- <- <-. eapply IH; eauto.
    - injection H as <- <- <- <-. constructor.
    - injection H as <- <- <- <-. apply life_err. now apply life_error.
  Qed.
  Lemma verbose_life others t0 w0 A r c tr w ms : verbose W app cs T says thrown unhandled others t0 w0 A r c tr w ms ->
    life (name AwaitingHandshake) ms (name (c_state c)).
  Proof.
    induction 1 as [|r c tr w w' ms _ IH Ho|r c tr w s r' c' ev w' ms _ IH Hr Hs Ha Hp]; [constructor|exact IH|].
    eapply life_app; [exact IH|]. unfold process in Hp.
    destruct (internal_process _ _ _ _ _ _ _ _) as [[[[v c1] ev1] w1]| | |] eqn:E; cbn [obind] in Hp; [|discriminate Hp..].
    apply life_internal in E. destruct v; try discriminate Hp; injection Hp as <- <- <- <-; exact E.
  Qed.
End States.

(** ** Last states *)
Section Ends.
  Variable W : Type.
  Variable app : request -> W -> W * app_answer.
  Variable cs : bool.
  Variable T : tree.
  Definition good_end (v : verdict) (s : conn_state) : Prop :=
    match v with
    | Continue => s <> Closing
    | Return WantRead => s = AwaitingHandshake \/ s = AwaitingPreface \/ s = AwaitingFrame
    | Return WantWrite => s <> AwaitingHandshake /\ s <> Closing
    | Return DiscardConnection => s <> AwaitingFrame
    | Exception => True
    end.
  Lemma end_frame f d e w fe d' e' w' ev : process_frame W app cs T f d e w = Ret (fe, d', e', w', ev) -> fe <> FrameState Closing.
  Proof.
    unfold process_frame. destruct (_ =? FRAME_TYPE_SETTINGS).
    { destruct (has_flag f 1); [now intros [= <- <- <- <- <-]|]. destruct (read_settings f) as [[?|?]| | |]; cbn [obind]; try discriminate; now intros [= <- <- <- <- <-]. }
    destruct (_ =? FRAME_TYPE_HEADERS).
    - destruct (headers_block f) as [b| | |]; cbn [obind]; try discriminate.
      destruct (hpack_decode T d b) as [[[hs|?] d2]| | |]; try discriminate; try now intros [= <- <- <- <- <-].
      destruct (process_request W app hs w) as [[w1 [rs|]] ev0]; [|now intros [= <- <- <- <- <-]].
      destruct (hpack_encode cs e (rs_headers rs)) as [[b1 e1]| | |]; try discriminate; try now intros [= <- <- <- <- <-].
      destruct (write_data_response _ _ _) as [data| | |]; cbn [obind]; try discriminate. now intros [= <- <- <- <- <-].
    - destruct (_ =? FRAME_TYPE_WINDOW_UPDATE).
      { destruct (read_window_update f); cbn [obind]; try discriminate. now intros [= <- <- <- <- <-]. }
      destruct (_ =? FRAME_TYPE_GOAWAY); now intros [= <- <- <- <- <-].
  Qed.
  Lemma end_try c w v c' ev w' : c_state c = AwaitingFrame -> try_read_frame W app cs T c w = Ret (v, c', ev, w') -> good_end v (c_state c').
  Proof.
    intros Es. unfold try_read_frame. destruct (_ <? 9); [intros [= <- <- <- <-]; cbn; auto|].
    destruct (fh_parse _) as [h| | |]; cbn [obind]; [|discriminate..]. destruct (_ >? _); [intros [= <- <- <- <-]; cbn; discriminate|].
    cbv zeta. destruct (_ <? _); [intros [= <- <- <- <-]; cbn; auto|].
    destruct (process_frame _ _ _ _ _ _ _ _) as [[[[[fe d] e] w1] ev1]| | |] eqn:E; cbn [obind]; [|discriminate..].
    apply end_frame in E. destruct fe; intros [= <- <- <- <-]; cbn [c_state discard good_end]; try exact I; congruence.
  Qed.
  Lemma end_dispatch c w v c' ev w' : c_state c <> Closing -> Conn.dispatch W app cs T c w = Ret (v, c', ev, w') -> good_end v (c_state c').
  Proof.
    intros Hc. unfold Conn.dispatch. destruct (c_state c) eqn:Es.
    - now intros [= <- <- <- <-].
    - unfold read_preface. destruct (_ <? _); [intros [= <- <- <- <-]; cbn; auto|]. destruct (bytes_eqb _ _).
      + destruct (try_read_frame W app cs T _ w) as [[[[v2 c2] ev2] w2]| | |] eqn:Et; cbn [obind]; [|discriminate..].
        intros [= <- <- <- <-]. apply end_try in Et; [exact Et|reflexivity].
      + intros [= <- <- <- <-]. cbn. congruence.
    - intros H. now apply end_try in H.
    - now destruct Hc.
    - unfold close. rewrite Es. intros [= <- <- <- <-]. cbn. discriminate.
    - intros [= <- <- <- <-]. cbn. congruence.
  Qed.
  Lemma end_fill rd : forall c c' ev rd', c_state c <> Closing -> fill_read_buffer rd c = (c', ev, rd') -> c_state c' <> Closing.
  Proof.
    induction rd as [|[now [o|e]] rd IH]; intros c c' ev rd' Hs; cbn [fill_read_buffer]; (destruct (_ >=? _); [now intros [= <- <- <-]|]).
    - now intros [= <- <- <-].
    - destruct (fill_read_buffer rd _) as [[c2 ev2] rd2] eqn:E. intros [= <- <- <-]. now apply IH in E.
    - intros [= <- <- <-]. destruct e; cbn [set_state c_state]; easy.
  Qed.
  Lemma end_flush wr c c' ev wr' : c_state c <> Closing -> flush_write_buffer wr c = (c', ev, wr') -> c_state c' <> Closing.
  Proof.
    intros Hs. unfold flush_write_buffer. destruct (c_wbuf c); [now intros [= <- <- <-]|].
    destruct wr as [|[? [?|?|[]]] ?]; intros [= <- <- <-]; easy.
  Qed.
  Lemma flush_shaken wr c c' ev wr' : shaken c -> flush_write_buffer wr c = (c', ev, wr') -> shaken c'.
  Proof. intros Hs E. exact (life_shaken _ _ _ (life_flush _ _ _ _ _ Hs E) Hs). Qed.
  Lemma end_internal fuel : forall s c w v c' ev w', c_state c <> Closing -> internal_process W app cs T fuel s c w = Ret (v, c', ev, w') -> good_end v (c_state c').
  Proof.
    induction fuel as [|n IH]; intros s c w v c' ev w' Hc; [discriminate|]. cbn [internal_process].
    destruct (match c_state c with AwaitingHandshake => handle_handshake (sc_hs s) c | _ => (None, c, [], sc_hs s) end) as [[[r c0] ev0] hs'] eqn:Eh.
    assert (K : match r with Some r => good_end (Return r) (c_state c0) | None => shaken c0 /\ c_state c0 <> Closing end).
    { revert Eh. unfold handle_handshake, shaken. destruct (c_state c) eqn:Es.
      2-6: intros [= <- <- <- <-]; rewrite Es; split; congruence.
      destruct (sc_hs s) as [|[? [|[]]] ?]; intros [= <- <- <- <-]; cbn [good_end c_state]; rewrite ?Es; auto; try congruence. split; discriminate. }
    destruct r; [intros [= <- <- <- <-]; exact K|]. destruct K as [K1 K2].
    destruct (flush_write_buffer (sc_wr s) c0) as [[c1 ev1] wr'] eqn:Ef. pose proof (flush_shaken _ _ _ _ _ K1 Ef) as K3. apply end_flush in Ef; [|exact K2].
    destruct (c_wbuf c1) eqn:Ew; [|intros [= <- <- <- <-]; cbn; auto].
    destruct (fill_read_buffer (sc_rd s) c1) as [[c2 ev2] rd'] eqn:El. apply end_fill in El; [|exact Ef].
    destruct (Conn.dispatch W app cs T c2 w) as [[[[v3 c3] ev3] w3]| | |] eqn:Ed; cbn [obind]; [|discriminate..].
    apply end_dispatch in Ed; [|exact El]. destruct v3.
    - destruct (internal_process W app cs T n _ c3 w3) as [[[[v4 c4] ev4] w4]| | |] eqn:Ei; cbn [obind]; [|discriminate..].
      intros [= <- <- <- <-]. eapply IH; [|exact Ei]. exact Ed.
    - intros [= <- <- <- <-]. exact Ed.
    - intros [= <- <- <- <-]. exact I.
  Qed.
  Lemma session_end others t0 w0 A r c tr w : session W app cs T others t0 w0 A r c tr w ->
    match r with None => c_state c = AwaitingHandshake | Some r => good_end (Return r) (c_state c) end.
  Proof.
    induction 1 as [|r c tr w w' _ IH Ho|r c tr w s r' c' ev w' _ IH Hr Hs Ha Hp]; [reflexivity|exact IH|].
    assert (Hc : c_state c <> Closing).
    { destruct r as [[]|]; cbn [good_end] in IH; try tauto; [intuition congruence..|congruence]. }
    unfold process in Hp. destruct (internal_process _ _ _ _ _ _ _ _) as [[[[v c1] ev1] w1]| | |] eqn:E; cbn [obind] in Hp; [|discriminate Hp..].
    apply end_internal in E; [|exact Hc]. destruct v; try discriminate Hp; injection Hp as <- <- <- <-; [exact E|]. cbn. discriminate.
  Qed.
End Ends.

(** ** Runs *)
Section Runs.
  Context {W : Type}.
  Variable app : request -> W -> W * app_answer.
  Variable cs : bool.
  Variable T : tree.
  Variable app_says : request -> W -> list message.
  Variable thrown : request -> W -> bytes.
  Variable unhandled : conn -> W -> bytes.
  Variable others : W -> W -> Prop.
  Variable t0 : Z.
  Variable w0 : W.
  Lemma verbose_exists A r c tr w : session W app cs T others t0 w0 A r c tr w ->
    exists ms, verbose W app cs T app_says thrown unhandled others t0 w0 A r c tr w ms.
  Proof.
    induction 1 as [|r c tr w w' _ [ms IH] Ho|r c tr w s r' c' ev w' _ [ms IH] Hr Hs Ha Hp]; [eexists; constructor|..];
      eexists; [eapply verbose_others; eassumption|eapply verbose_process; eassumption].
  Qed.
  Lemma verbose_session A r c tr w ms : verbose W app cs T app_says thrown unhandled others t0 w0 A r c tr w ms -> session W app cs T others t0 w0 A r c tr w.
  Proof. induction 1; econstructor; eassumption. Qed.
  Fixpoint tell (ss : list scripts) (r : option result) (c : conn) (tr : trace) (w : W) (ms : list message) : out (option result * conn * trace * W * list message) :=
    match ss with
    | [] => Ret (r, c, tr, w, ms)
    | s :: ss' =>
      match r with
      | Some DiscardConnection => Fuel
      | _ => let! (r', c', ev, w') := process W app cs T s c w in
             tell ss' (Some r') c' (tr ++ ev) w' (ms ++ process_debug W app cs T app_says thrown unhandled s c w)
      end
    end.
  Lemma tell_verbose (A : scripts -> Prop) ss : Forall scripts_ok ss -> Forall A ss -> forall r c tr w ms r' c' tr' w' ms',
    verbose W app cs T app_says thrown unhandled others t0 w0 A r c tr w ms -> tell ss r c tr w ms = Ret (r', c', tr', w', ms') ->
    verbose W app cs T app_says thrown unhandled others t0 w0 A r' c' tr' w' ms'.
  Proof.
    induction ss as [|s ss IH]; intros H1 H2 r c tr w ms r' c' tr' w' ms' HN E; cbn [tell] in E.
    - now injection E as <- <- <- <- <-.
    - inversion H1; inversion H2; subst.
      destruct (process W app cs T s c w) as [[[[r1 c1] ev1] w1]| | |] eqn:Ep; try (destruct r as [[]|]; discriminate E).
      assert (Hr : r <> Some DiscardConnection) by (intros ->; discriminate E).
      eapply IH; [assumption|assumption| |].
      + eapply verbose_process; eauto.
      + destruct r as [[]|]; try exact E. now destruct Hr.
  Qed.
  Lemma by_tell (A : scripts -> Prop) ss r (Phi : conn -> trace -> W -> list message -> Prop) : Forall scripts_ok ss -> Forall A ss ->
    match tell ss None (fresh_conn t0) [] w0 [] with Ret (r', c, tr, w, ms) => r' = r /\ Phi c tr w ms | _ => False end ->
    exists c tr w ms, verbose W app cs T app_says thrown unhandled others t0 w0 A r c tr w ms /\ Phi c tr w ms.
  Proof.
    intros H1 H2. destruct (tell ss None (fresh_conn t0) [] w0 []) as [[[[[r' c] tr] w] ms]| | |] eqn:E; try easy.
    intros [-> HP]. exists c, tr, w, ms. split; [|exact HP]. eapply tell_verbose; eauto. constructor.
  Qed.
End Runs.
