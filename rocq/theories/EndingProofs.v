(** No connection is shut down (C132). *)
From Verif Require Import Base BaseLemmas Huffman HpackDec HpackEnc Frames Http Conn ConnLemmas SpecConn DebugProofs.

Section Open.
  Variable W : Type.
  Variable app : request -> W -> W * app_answer.
  Variable cs : bool.
  Variable T : tree.
  Notation open := (Forall (fun ev => ev <> EvShutdown)).

  Lemma open_request hs w w' r ev : process_request W app hs w = (w', r, ev) -> open ev.
  Proof.
    unfold process_request. destruct (get_header hs (str ":path")); [|intros [= <- <- <-]; constructor].
    destruct (get_header hs (str ":method")); [|intros [= <- <- <-]; constructor].
    destruct (app _ w) as [w1 []]; intros [= <- <- <-]; repeat constructor; discriminate.
  Qed.
  Lemma open_frame f d e w fe d' e' w' ev : process_frame W app cs T f d e w = Ret (fe, d', e', w', ev) -> open ev.
  Proof.
    unfold process_frame. destruct (_ =? FRAME_TYPE_SETTINGS).
    { destruct (has_flag f 1); [intros [= <- <- <- <- <-]; constructor|].
      destruct (read_settings f) as [[?|?]| | |]; cbn [obind]; try discriminate; intros [= <- <- <- <- <-]; repeat constructor; discriminate. }
    destruct (_ =? FRAME_TYPE_HEADERS).
    - destruct (headers_block f) as [b| | |]; cbn [obind]; try discriminate.
      destruct (hpack_decode T d b) as [[[hs|?] d2]| | |]; try discriminate; try (intros [= <- <- <- <- <-]; constructor).
      destruct (process_request W app hs w) as [[w1 [rs|]] ev0] eqn:E; apply open_request in E; [|intros [= <- <- <- <- <-]; exact E].
      destruct (hpack_encode cs e (rs_headers rs)) as [[b1 e1]| | |]; try discriminate; try (intros [= <- <- <- <- <-]; exact E).
      destruct (write_data_response _ _ _) as [data| | |]; cbn [obind]; try discriminate. intros [= <- <- <- <- <-].
      apply Forall_app. split; [exact E|]. destruct (rs_body rs); cbn; repeat constructor; try discriminate.
      all: repeat (apply Forall_app; split || constructor || discriminate).
    - destruct (_ =? FRAME_TYPE_WINDOW_UPDATE).
      { destruct (read_window_update f); cbn [obind]; try discriminate. intros [= <- <- <- <- <-]. constructor. }
      destruct (_ =? FRAME_TYPE_GOAWAY); intros [= <- <- <- <- <-]; constructor.
  Qed.
  Lemma open_try c w v c' ev w' : try_read_frame W app cs T c w = Ret (v, c', ev, w') -> open ev.
  Proof.
    unfold try_read_frame. destruct (_ <? 9); [intros [= <- <- <- <-]; constructor|].
    destruct (fh_parse _) as [h| | |]; cbn [obind]; [|discriminate..]. destruct (_ >? _); [intros [= <- <- <- <-]; constructor|].
    cbv zeta. destruct (_ <? _); [intros [= <- <- <- <-]; constructor|].
    destruct (process_frame _ _ _ _ _ _ _ _) as [[[[[fe d] e] w1] ev1]| | |] eqn:E; cbn [obind]; [|discriminate..].
    apply open_frame in E. destruct fe; intros [= <- <- <- <-]; exact E.
  Qed.
  Lemma open_dispatch c w v c' ev w' : c_state c <> Closing -> Conn.dispatch W app cs T c w = Ret (v, c', ev, w') -> open ev.
  Proof.
    intros Hc. unfold Conn.dispatch. destruct (c_state c) eqn:Es.
    - intros [= <- <- <- <-]. constructor.
    - unfold read_preface. destruct (_ <? _); [intros [= <- <- <- <-]; constructor|]. destruct (bytes_eqb _ _); [|intros [= <- <- <- <-]; constructor].
      destruct (try_read_frame W app cs T _ w) as [[[[v2 c2] ev2] w2]| | |] eqn:Et; cbn [obind]; [|discriminate..].
      intros [= <- <- <- <-]. apply open_try in Et. constructor; [discriminate|exact Et].
    - apply open_try.
    - now elim Hc.
    - unfold close. rewrite Es. intros [= <- <- <- <-]. repeat constructor. discriminate.
    - intros [= <- <- <- <-]. constructor.
  Qed.
  Lemma open_fill rd : forall c c' ev rd', fill_read_buffer rd c = (c', ev, rd') -> open ev.
  Proof.
    induction rd as [|[now [o|e]] rd IH]; intros c c' ev rd'; cbn [fill_read_buffer]; (destruct (_ >=? _); [intros [= <- <- <-]; constructor|]).
    - intros [= <- <- <-]. repeat constructor; discriminate.
    - destruct (fill_read_buffer rd _) as [[c2 ev2] rd2] eqn:E. intros [= <- <- <-]. apply IH in E. constructor; [discriminate|exact E].
    - intros [= <- <- <-]. repeat constructor; discriminate.
  Qed.
  Lemma open_flush wr c c' ev wr' : flush_write_buffer wr c = (c', ev, wr') -> open ev.
  Proof.
    unfold flush_write_buffer. destruct (c_wbuf c); [intros [= <- <- <-]; constructor|].
    destruct wr as [|[? [?|?|?]] ?]; intros [= <- <- <-]; repeat constructor; discriminate.
  Qed.
  Lemma open_internal fuel : forall s c w v c' ev w', c_state c <> Closing -> internal_process W app cs T fuel s c w = Ret (v, c', ev, w') -> open ev.
  Proof.
    induction fuel as [|n IH]; intros s c w v c' ev w' Hc; [discriminate|]. cbn [internal_process].
    destruct (match c_state c with AwaitingHandshake => handle_handshake (sc_hs s) c | _ => (None, c, [], sc_hs s) end) as [[[r c0] ev0] hs'] eqn:Eh.
    assert (K : open ev0 /\ c_state c0 <> Closing).
    { revert Eh. unfold handle_handshake. destruct (c_state c) eqn:Es.
      2-6: intros [= <- <- <- <-]; split; [constructor|congruence].
      destruct (sc_hs s) as [|[? [|[]]] ?]; intros [= <- <- <- <-]; cbn [c_state]; split; try (repeat constructor); congruence. }
    destruct K as [K1 K2]. destruct r; [intros [= <- <- <- <-]; exact K1|].
    destruct (flush_write_buffer (sc_wr s) c0) as [[c1 ev1] wr'] eqn:Ef. pose proof (open_flush _ _ _ _ _ Ef) as K3. apply end_flush in Ef; [|exact K2].
    destruct (c_wbuf c1) eqn:Ew; [|intros [= <- <- <- <-]; apply Forall_app; now split].
    destruct (fill_read_buffer (sc_rd s) c1) as [[c2 ev2] rd'] eqn:El. pose proof (open_fill _ _ _ _ _ El) as K4. apply end_fill in El; [|exact Ef].
    destruct (Conn.dispatch W app cs T c2 w) as [[[[v3 c3] ev3] w3]| | |] eqn:Ed; cbn [obind]; [|discriminate..].
    pose proof (open_dispatch _ _ _ _ _ _ El Ed) as K5. apply end_dispatch in Ed; [|exact El]. destruct v3.
    - destruct (internal_process W app cs T n _ c3 w3) as [[[[v4 c4] ev4] w4]| | |] eqn:Ei; cbn [obind]; [|discriminate..].
      intros [= <- <- <- <-]. apply IH in Ei; [|exact Ed]. rewrite !Forall_app. auto.
    - intros [= <- <- <- <-]. rewrite !Forall_app. auto.
    - intros [= <- <- <- <-]. rewrite !Forall_app. auto.
  Qed.
  Lemma session_open others t0 w0 A r c tr w : session W app cs T others t0 w0 A r c tr w ->
    open tr /\ (r <> Some DiscardConnection -> c_state c <> Closing).
  Proof.
    intros H. split.
    - induction H as [|r c tr w w' _ IH Ho|r c tr w s r' c' ev w' H IH Hr Hs Ha Hp]; [constructor|exact IH|].
      assert (Hc : c_state c <> Closing).
      { apply session_end in H. destruct r as [[]|]; cbn [good_end] in H; try tauto; [intuition congruence..|congruence]. }
      apply Forall_app. split; [exact IH|].
      unfold process in Hp. destruct (internal_process _ _ _ _ _ _ _ _) as [[[[v c1] ev1] w1]| | |] eqn:E; cbn [obind] in Hp; [|discriminate Hp..].
      apply open_internal in E; [|exact Hc]. destruct v; try discriminate Hp; injection Hp as <- <- <- <-; exact E.
    - apply session_end in H. intros Hr. destruct r as [[]|]; cbn [good_end] in H; try tauto; [intuition congruence..|congruence].
  Qed.
End Open.
