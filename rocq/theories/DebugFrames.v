(** Which frames the messages at level debug tell of. *)
From Verif Require Import Base BaseLemmas SpecFrames StaticTable IntCodec Huffman DynTable HpackDec HpackEnc Frames FramesProofs Http Conn ConnLemmas ConnRule ConnBasic ConnTerm ConnRun SpecConn
  ConnSpec ConnMain ConnDet ConnMore ConnLast AccessLog Messages DebugMessages SpecDebug DebugProofs.

Definition dull (ms : list message) : Prop := Forall (fun m => ~ about_frames m) ms.
Lemma tells_app a x b y : tells_of a x -> tells_of b y -> tells_of (a ++ b) (x ++ y).
Proof. induction 1; intros Hy; cbn [Datatypes.app]; [exact Hy|apply of_other; auto|apply of_frame; auto]. Qed.
Lemma tells_dull ms : dull ms -> tells_of ms [].
Proof. induction 1; [constructor|now apply of_other]. Qed.
Lemma tells_more a x b : tells_of a x -> dull b -> tells_of (a ++ b) x.
Proof. intros H Hb. rewrite <- (app_nil_r x). apply tells_app; [exact H|now apply tells_dull]. Qed.
Lemma loud_dull ms : loud ms -> dull ms.
Proof.
  unfold loud, dull. induction ms as [|m ms IH]; intros H; [constructor|]. cbn [louder filter] in H.
  assert (L : lenZ (louder ms) <= lenZ ms).
  { clear. induction ms as [|m ms IH]; cbn [louder filter]; [lia|]. destruct (m_level m); rewrite ?lenZ_cons; unfold louder in *; lia. }
  assert (m_level m <> LDebug /\ louder ms = ms) as [Hm Hl].
  { destruct (m_level m); try (injection H as H; split; [discriminate|exact H]);
      (exfalso; apply (f_equal lenZ) in H; rewrite lenZ_cons in H; unfold louder in L; lia). }
  constructor; [|auto]. intros [E _]. congruence.
Qed.
(** Messages that do not begin with "rec"; "received SETTINGS ACK". *)
Lemma not_frames t : firstn 3 t <> str "rec" -> ~ about_frames (debug t).
Proof.
  intros H (_ & start & rest & E & Hin). cbn [m_text debug] in E. subst t. apply H.
  destruct Hin as [<-|[<-|[<-|[<-|[<-|[]]]]]]; reflexivity.
Qed.
Lemma not_frames_ack : ~ about_frames (debug (str "received SETTINGS ACK")).
Proof. intros (_ & start & rest & E & Hin). cbn [m_text debug] in E. destruct Hin as [<-|[<-|[<-|[<-|[<-|[]]]]]]; cbn in E; discriminate E. Qed.
Lemma not_frames_head t : ~ about_frames (debug (str "received frame header: " ++ t)).
Proof. intros (_ & start & rest & E & Hin). cbn [m_text debug] in E. destruct Hin as [<-|[<-|[<-|[<-|[<-|[]]]]]]; cbn in E; discriminate E. Qed.
Lemma dull_debug t l : firstn 3 t <> str "rec" -> dull l -> dull (debug t :: l).
Proof. intros H. constructor; [now apply not_frames|assumption]. Qed.
Lemma dull_app a b : dull a -> dull b -> dull (a ++ b).
Proof. intros. now apply Forall_app. Qed.
Lemma dull_nil : dull [].
Proof. constructor. Qed.
Lemma dull_other m l : m_level m <> LDebug -> dull l -> dull (m :: l).
Proof. intros H. constructor; [|assumption]. now intros [E _]. Qed.
Ltac dull_tac := repeat first [apply dull_nil|apply dull_app|apply dull_debug; [discriminate|]|apply dull_other; [discriminate|]].
Lemma dull_insert t h : dull (insert_debug t h).
Proof. unfold insert_debug. cbv zeta. destruct (_ >? _); dull_tac. Qed.
Lemma dull_decode T fuel : forall t r, dull (decode_loop_debug T fuel t r).
Proof.
  induction fuel as [|n IH]; intros t [|b r]; try apply dull_nil. cbn [decode_loop_debug].
  destruct (from_byte b); try apply dull_app; try (apply loud_dull; solve [apply loud_indexed | apply loud_literal | apply loud_size]).
  - destruct (decode_indexed_field t (b :: r)) as [[[?|?] ?]| | |]; auto using dull_nil.
  - destruct (decode_literal_field T 6 t (b :: r)) as [[[h|?] ?]| | |]; auto using dull_nil.
    destruct (dt_insert t h); auto using dull_nil. apply dull_app; auto using dull_insert.
  - destruct (decode_size_update t (b :: r)) as [[[?|?] ?]| | |]; auto using dull_nil.
  - destruct (decode_literal_field T 4 t (b :: r)) as [[[?|?] ?]| | |]; auto using dull_nil.
  - destruct (decode_literal_field T 4 t (b :: r)) as [[[?|?] ?]| | |]; auto using dull_nil.
  - dull_tac.
Qed.
Lemma dull_encode cs hs : forall t, dull (encode_debug cs t hs).
Proof.
  induction hs as [|h hs IH]; intros t; [apply dull_nil|]. cbn [encode_debug]. destruct (encode_header cs t h) as [[? t1]| | |]; try apply dull_nil.
  apply dull_app; [|apply IH]. destruct (find_index _ _); [apply dull_nil|]. destruct (dt_find t h); [apply dull_nil|apply dull_insert].
Qed.
Lemma dull_entries hs : forall pos, dull (entries_debug pos hs).
Proof. induction hs as [|h hs IH]; intros pos; [apply dull_nil|]. cbn [entries_debug]. apply dull_debug; [discriminate|apply IH]. Qed.
Lemma dull_tables d e : dull (tables_debug d e).
Proof. unfold tables_debug, contents_debug. cbn [Datatypes.app]. repeat (first [apply dull_debug; [discriminate|]|apply dull_app]); apply dull_entries. Qed.
Lemma dull_fields hs : dull (fields_debug hs).
Proof. induction hs as [|h hs IH]; [apply dull_nil|]. apply dull_debug; [discriminate|exact IH]. Qed.
Lemma dull_update s s' : dull (update_debug s s').
Proof. unfold update_debug. destruct (same_state s s'); dull_tac. Qed.
Lemma dull_fill rd : forall c, dull (fill_debug rd c).
Proof.
  induction rd as [|[now [o|e]] rd IH]; intros c; cbn [fill_debug]; (destruct (_ >=? _); [dull_tac|]).
  - apply dull_nil.
  - apply IH.
  - destruct e; dull_tac; apply dull_update.
Qed.
Lemma dull_flush wr c : dull (flush_debug wr c).
Proof. unfold flush_debug, flush_messages. destruct (c_wbuf c); [dull_tac|]. destruct wr as [|[? [?|?|[]]] ?]; cbn [Datatypes.app]; dull_tac; apply dull_update. Qed.
Lemma dull_preface c : dull (preface_debug c).
Proof.
  unfold preface_debug, preface_messages. destruct (read_preface c) as [[[] ?] ?]; cbn [Datatypes.app]; dull_tac; try apply dull_update.
Qed.
Lemma dull_close c : dull (close_debug c).
Proof. unfold close_debug, close_messages. destruct (c_state c); cbn [Datatypes.app]; dull_tac; try apply dull_update. Qed.

Lemma hex_text_pair n : is_byte n -> hex_text n = str "0x" ++ hex_pair n.
Proof.
  intros H. unfold hex_text, hex_pair. f_equal.
  assert (D : forall k, 0 <= k < 16 -> hex_digit k = nth (Z.to_nat k) (str "0123456789abcdef") 0).
  { intros k Hk. assert (In k [0;1;2;3;4;5;6;7;8;9;10;11;12;13;14;15]) as Hin by (cbn; lia).
    repeat (destruct Hin as [<-|Hin]; [reflexivity|]). destruct Hin. }
  unfold is_byte in H. rewrite !D by lia. reflexivity.
Qed.

Section Tales.
  Variable W : Type.
  Variable app : request -> W -> W * app_answer.
  Variable cs : bool.
  Variable T : tree.
  Variable says : request -> W -> list message.
  Variable thrown : request -> W -> bytes.
  Variable unhandled : conn -> W -> bytes.
  Hypothesis Hsays : forall rq w, dull (says rq w).

  Lemma dull_request hs w : dull (request_messages W app says thrown hs w).
  Proof.
    unfold request_messages. destruct (get_header hs (str ":path")); [|dull_tac]. destruct (get_header hs (str ":method")); [|dull_tac].
    apply dull_app; [apply Hsays|]. destruct (snd _); dull_tac.
  Qed.
  Lemma frame_tells s f d e w : exists l, frame_debug W app cs T says thrown s f d e w = kind_line (wf f) :: l /\ dull l.
  Proof.
    unfold frame_debug, FRAME_TYPE_SETTINGS, FRAME_TYPE_HEADERS, FRAME_TYPE_WINDOW_UPDATE, FRAME_TYPE_GOAWAY, kind_line, wf. cbn [w_type w_stream w_flags].
    destruct (f_type f =? 4) eqn:E4.
    { apply Z.eqb_eq in E4. rewrite E4. eexists. split; [reflexivity|]. destruct (has_flag f 1); [constructor; [apply not_frames_ack|constructor]|].
      destruct (negb _); dull_tac. apply dull_update. }
    destruct (f_type f =? 1) eqn:E1.
    { apply Z.eqb_eq in E1. rewrite E1. eexists. split; [reflexivity|]. apply dull_debug; [discriminate|]. apply dull_app; [apply dull_tables|].
      destruct (headers_block f) as [b| | |]; dull_tac. { apply dull_decode. }
      destruct (hpack_decode T d b) as [[[hs|?] d2]| | |]; dull_tac; try apply dull_update; try apply dull_fields; try apply dull_request.
      destruct (process_request W app hs w) as [[w1 [rs|]] ev0]; dull_tac. { apply dull_encode. }
      destruct (hpack_encode cs e (rs_headers rs)) as [[b1 e1]| | |]; try apply dull_nil. apply dull_app; [apply dull_tables|].
      apply loud_dull. unfold sent_messages, loud. destruct (rs_body rs); reflexivity. }
    destruct (f_type f =? 8) eqn:E8.
    { apply Z.eqb_eq in E8. rewrite E8. eexists. split; [reflexivity|]. destruct (read_window_update f); dull_tac. }
    destruct (f_type f =? 7) eqn:E7.
    { apply Z.eqb_eq in E7. rewrite E7. eexists. split; [reflexivity|]. apply dull_update. }
    eexists. split; [|apply dull_nil]. f_equal. unfold debug. f_equal.
    apply Z.eqb_neq in E4, E1, E8, E7. set (t := f_type f) in *. clearbody t.
    destruct t as [|p|p]; try reflexivity. do 4 (try match goal with q : positive |- _ => destruct q; try reflexivity end); exfalso; auto.
  Qed.

  (** What has been read so far and which frames the messages told of. *)
  Definition told_until (c : conn) (tr : trace) (ms : list message) : Prop :=
    all_bytes (received tr) /\
    ((received tr = c_rbuf c /\ tells_of ms [] /\ c_state c <> AwaitingFrame) \/
     (exists fs o, received tr = rfc_preface ++ o ++ c_rbuf c /\ frames_octets fs o /\ tells_of ms fs /\
        c_state c <> AwaitingPreface /\ c_state c <> AwaitingHandshake)).
  Definition told (tr : trace) (ms : list message) : Prop :=
    tells_of ms [] \/ exists fs o rest, received tr = rfc_preface ++ o ++ rest /\ frames_octets fs o /\ tells_of ms fs.
  Lemma told_weak c tr ms : told_until c tr ms -> told tr ms.
  Proof. intros (_ & [(_ & H & _)|(fs & o & E & F & H & _)]); [now left|right]. exists fs, o, (c_rbuf c). auto. Qed.
  Lemma told_same c c' tr ev ms ms' : told_until c tr ms -> c_rbuf c' = c_rbuf c -> received ev = [] -> dull ms' ->
    (c_state c <> AwaitingFrame -> c_state c' <> AwaitingFrame) ->
    (c_state c <> AwaitingPreface -> c_state c <> AwaitingHandshake -> c_state c' <> AwaitingPreface /\ c_state c' <> AwaitingHandshake) ->
    told_until c' (tr ++ ev) (ms ++ ms').
  Proof.
    intros (Hb & H) Er Ee Hd H1 H2. unfold told_until. rewrite received_app, Ee, app_nil_r, Er. split; [exact Hb|].
    destruct H as [(E & Ht & Hs)|(fs & o & E & F & Ht & Ha & Hh)]; [left|right].
    - split; [exact E|]. split; [now apply tells_more|auto].
    - exists fs, o. split; [exact E|]. split; [exact F|]. split; [now apply tells_more|auto].
  Qed.
  Lemma told_fill rd : forall c c' ev rd' tr ms, Forall rd_ok rd -> fill_read_buffer rd c = (c', ev, rd') -> told_until c tr ms -> told_until c' (tr ++ ev) ms.
  Proof.
    induction rd as [|[now [o|e]] rd IH]; intros c c' ev rd' tr ms Hok; cbn [fill_read_buffer]; (destruct (_ >=? _); [intros [= <- <- <-]; now rewrite app_nil_r|]).
    - intros [= <- <- <-]. now rewrite app_nil_r.
    - apply Forall_cons_iff in Hok as [Hb Hok']. cbn in Hb. destruct Hb as [Hb _]. destruct (fill_read_buffer rd _) as [[c2 ev2] rd2] eqn:E. intros [= <- <- <-] H.
      replace (tr ++ EvRead now o :: ev2) with ((tr ++ [EvRead now o]) ++ ev2) by now rewrite <- app_assoc.
      eapply IH; [exact Hok'|exact E|]. destruct H as (Ha & H). unfold told_until. rewrite received_app. cbn [received flat_map c_rbuf c_state]. rewrite app_nil_r.
      split; [apply all_bytes_app; split; assumption|]. destruct H as [(E1 & Ht & Hs)|(fs & p & E1 & F & Ht & Ha' & Hh)]; [left|right].
      + rewrite E1. auto.
      + exists fs, p. rewrite E1, <- !app_assoc. auto.
    - intros [= <- <- <-] H. rewrite <- (app_nil_r ms). apply (told_same c); [exact H|destruct e; reflexivity|reflexivity|apply dull_nil|..]; destruct e; cbn; auto; solve [discriminate | split; discriminate].
  Qed.
  Lemma told_flush wr c c' ev wr' tr ms : flush_write_buffer wr c = (c', ev, wr') -> told_until c tr ms -> told_until c' (tr ++ ev) (ms ++ flush_debug wr c).
  Proof.
    intros E H. pose proof (flush_rbuf _ _ _ _ _ E) as Er. revert E. unfold flush_write_buffer. intros E.
    apply (told_same c); [exact H|exact Er| |apply dull_flush|..]; clear H Er;
      (destruct (c_wbuf c); [injection E as <- <- <-; auto|]; destruct wr as [|[? [?|?|[]]] ?]; injection E as <- <- <-; cbn; auto; solve [discriminate | split; discriminate]).
  Qed.
  Lemma told_try c w v c' ev w' tr ms : c_state c = AwaitingFrame -> told_until c tr ms -> try_read_frame W app cs T c w = Ret (v, c', ev, w') ->
    (v = Exception -> told (tr ++ ev) (ms ++ try_read_debug W app cs T says thrown c w)) /\
    (v <> Exception -> told_until c' (tr ++ ev) (ms ++ try_read_debug W app cs T says thrown c w)) /\
    (forall r, v = Return r -> incomplete (c_rbuf c')).
  Proof.
    intros Es (Hb & H) E. destruct H as [(_ & _ & N)|(fs & o & Er & F & Ht & N1 & N2)]; [now destruct N|].
    assert (Hr : all_bytes (c_rbuf c)) by (rewrite Er in Hb; apply all_bytes_app in Hb as [_ Hb]; now apply all_bytes_app in Hb as [_ Hb]).
    pose proof E as E0. apply try_read_frame_inv in E; [|exact Hr]. unfold try_read_debug.
    destruct E as [(-> & -> & -> & -> & Hi)|[(-> & -> & -> & -> & Hl & h & Eh & Hm)|(o1 & rest & f & fe & d & e & Eo & Hc & Ep & Hfe)]].
    - split; [discriminate|]. split; [|intros; exact Hi]. intros _. apply (told_same c); [split; [exact Hb|right; exists fs, o; auto]|reflexivity|reflexivity| |auto|auto].
      destruct (_ <? 9) eqn:L9; [apply dull_nil|]. destruct Hi as [Hi|(h & Eh & Hm & Hl)]; [lia|]. rewrite Eh.
      replace (fh_length h >? MAX_FRAME_SIZE) with false by lia. replace (lenZ (c_rbuf c) <? 9 + fh_length h) with true by lia.
      constructor; [apply not_frames_head|constructor].
    - split; [discriminate|]. split; [|discriminate]. intros _. apply (told_same c); [split; [exact Hb|right; exists fs, o; auto]|reflexivity|reflexivity| |..].
      + replace (_ <? 9) with false by lia. rewrite Eh. replace (fh_length h >? MAX_FRAME_SIZE) with true by lia.
        constructor; [apply not_frames_head|]. apply dull_other; [discriminate|]. apply dull_app; [apply dull_update|]. apply dull_debug; [discriminate|apply dull_nil].
      + discriminate.
      + split; discriminate.
    - pose proof Hc as (L9 & Hbo & Eh & Epl & Elen & Hm).
      assert (Hlo : lenZ (c_rbuf c) = lenZ o1 + lenZ rest) by now rewrite Eo, lenZ_app. pose proof (lenZ_nonneg rest).
      assert (Eh' : fh_parse (firstn 9 (c_rbuf c)) = Ret (f_header f)).
      { rewrite Eo, firstn_app_long; [exact Eh|]. unfold lenZ in L9. lia. }
      replace (lenZ (c_rbuf c) <? 9) with false by lia. rewrite Eh'. replace (fh_length (f_header f) >? MAX_FRAME_SIZE) with false by lia.
      replace (lenZ (c_rbuf c) <? 9 + fh_length (f_header f)) with false by lia.
      assert (Ef : Frame (f_header f) (firstn (Z.to_nat (fh_length (f_header f))) (skipn 9 (c_rbuf c))) = f).
      { destruct f as [h p]. cbn [f_header f_payload] in *. f_equal. rewrite Eo, skipn_app.
        replace (9 - length o1)%nat with O by (unfold lenZ in L9; lia). rewrite skipn_O, <- Epl.
        assert (length p = Z.to_nat (fh_length h)) by (rewrite Epl, skipn_length; unfold lenZ in *; lia).
        rewrite <- H0, firstn_app, Nat.sub_diag, firstn_all, firstn_O. now rewrite app_nil_r. }
      cbv zeta. rewrite Ef, Ep. destruct (frame_tells (c_state c) f (c_dec c) (c_enc c) w) as (l & El & Hd). rewrite El.
      assert (Hh : is_byte (fh_flags (f_header f)) /\ lenZ (f_payload f) = fh_length (f_header f)).
      { split; [|now apply (chunk_payload_len o1)]. destruct (parse_total o1 L9 Hbo) as (h & Eh2 & _ & _ & Hfl & _). rewrite Eh in Eh2. now injection Eh2 as <-. }
      destruct Hh as [Hfl Hpl].
      assert (Ehead : debug (str "received frame header: type: " ++ to_string (fh_type (f_header f)) ++ str ", flag: " ++ hex_text (fh_flags (f_header f)) ++
               str ", length: " ++ to_string (fh_length (f_header f))) = head_line (wf f)).
      { unfold head_line, wf, debug. cbn [w_type w_flags w_payload]. rewrite Hpl, hex_text_pair by exact Hfl. reflexivity. }
      rewrite Ehead. set (tl := match fe with FrameThrows => [] | _ => [processed] end).
      assert (Htl : dull (l ++ tl)) by (apply dull_app; [exact Hd|destruct fe; dull_tac]).
      match goal with |- context [ms ++ ?X] => assert (Etl : X = head_line (wf f) :: kind_line (wf f) :: l ++ tl) by (unfold tl; destruct fe; reflexivity) end.
      rewrite Etl. clear Etl.
      assert (Htell : tells_of (ms ++ head_line (wf f) :: kind_line (wf f) :: l ++ tl) (fs ++ [wf f])).
      { apply tells_app; [exact Ht|]. apply of_frame. now apply tells_dull. }
      assert (Hev : received ev = []).
      { apply process_frame_inv in Ep. clear - Ep.
        assert (R : forall hdrs w w' resp evr, process_request W app hdrs w = (w', resp, evr) -> received evr = []).
        { intros hdrs w0 w1 resp evr. unfold process_request. destruct (get_header hdrs _); [|now intros [= <- <- <-]]. destruct (get_header hdrs _); [|now intros [= <- <- <-]].
          destruct (app _ w0) as [? []]; now intros [= <- <- <-]. }
        decompose [and or ex] Ep; subst; try reflexivity; try (eapply R; eassumption).
        rewrite received_app. cbn. rewrite app_nil_r. eapply R; eassumption. }
      assert (Hfr : frames_octets (fs ++ [wf f]) (o ++ o1)) by (apply frames_octets_app; [exact F|apply frames_octets_one, chunk_frame_octets, Hc]).
      assert (Erec : received (tr ++ ev) = rfc_preface ++ (o ++ o1) ++ rest) by (rewrite received_app, Hev, app_nil_r, Er, Eo, <- !app_assoc; reflexivity).
      assert (Hall : all_bytes (received (tr ++ ev))) by now rewrite received_app, Hev, app_nil_r.
      pose proof (end_frame _ _ _ _ _ _ _ _ _ _ _ _ _ Ep) as Hclosing.
      destruct fe as [|s|]; destruct Hfe as [-> ->].
      + split; [discriminate|]. split; [|discriminate]. intros _. split; [exact Hall|]. right. exists (fs ++ [wf f]), (o ++ o1). cbn [c_rbuf c_state]. auto.
      + split; [discriminate|]. split; [|discriminate]. intros _. split; [exact Hall|]. right. exists (fs ++ [wf f]), (o ++ o1). cbn [c_rbuf c_state].
        assert (s = StProtocolError \/ s = ClientClosed) as Hs.
        { apply process_frame_inv in Ep. clear - Ep. decompose [and or ex] Ep; try discriminate;
            match goal with K : FrameState _ = FrameState _ |- _ => injection K as ->; auto end. }
        repeat split; auto; destruct Hs as [-> | ->]; discriminate.
      + split; [|split; [now intros N|discriminate]]. intros _. right. exists (fs ++ [wf f]), (o ++ o1), rest. auto.
  Qed.
  Lemma told_dispatch c w v c' ev w' tr ms : c_state c <> AwaitingHandshake -> told_until c tr ms -> Conn.dispatch W app cs T c w = Ret (v, c', ev, w') ->
    (v = Exception -> told (tr ++ ev) (ms ++ dispatch_debug W app cs T says thrown c w)) /\
    (v <> Exception -> told_until c' (tr ++ ev) (ms ++ dispatch_debug W app cs T says thrown c w)) /\
    (v = Return WantRead -> c_state c' = AwaitingFrame -> incomplete (c_rbuf c')).
  Proof.
    intros Hs H. unfold Conn.dispatch, dispatch_debug. destruct (c_state c) eqn:Es.
    - now destruct Hs.
    - pose proof (dull_preface c) as Dp. unfold read_preface in *. destruct (_ <? _) eqn:L.
      { intros [= <- <- <- <-]. split; [discriminate|]. split; [|congruence]. intros _. apply (told_same c); auto; solve [rewrite app_nil_r; exact Dp | discriminate | split; discriminate]. }
      destruct (bytes_eqb _ _) eqn:B.
      2:{ intros [= <- <- <- <-]. split; [discriminate|]. split; [|congruence]. intros _. apply (told_same c); auto; solve [rewrite app_nil_r; exact Dp | discriminate | split; discriminate]. }
      apply bytes_eqb_eq in B. set (c1 := discard (lenZ CLIENT_PREFACE) (set_state AwaitingFrame (enqueue write_settings c))) in *.
      assert (H1 : told_until c1 (tr ++ [EvQueue write_settings]) (ms ++ preface_debug c)).
      { destruct H as (Hb & [(Er & Ht & _)|(fs & o & _ & _ & _ & N & _)]); [|congruence]. unfold told_until. rewrite received_app. cbn [received flat_map]. rewrite app_nil_r.
        split; [exact Hb|]. right. exists [], []. split.
        - rewrite Er. cbn [c1 c_rbuf enqueue set_state discard Datatypes.app]. rewrite <- (firstn_skipn (Z.to_nat (lenZ CLIENT_PREFACE)) (c_rbuf c)) at 1.
          f_equal. exact B.
        - split; [exists []; split; constructor|]. split; [now apply tells_more|]. split; discriminate. }
      destruct (try_read_frame W app cs T c1 w) as [[[[v2 c2] ev2] w2]| | |] eqn:Et; cbn [obind]; [|discriminate..].
      intros [= <- <- <- <-]. eapply told_try in Et; [|reflexivity|exact H1]. rewrite <- !app_assoc in Et. destruct Et as (X & Y & Z). split; [exact X|]. split; [exact Y|]. eauto.
    - intros E. eapply told_try in E; [|exact Es|exact H]. destruct E as (X & Y & Z). split; [exact X|]. split; [exact Y|]. eauto.
    - intros [= <- <- <- <-]. split; [discriminate|]. split; [|discriminate]. intros _. apply (told_same c); auto; [|discriminate|split; discriminate]. apply dull_debug; [discriminate|apply dull_update].
    - unfold close. rewrite Es. intros [= <- <- <- <-]. split; [discriminate|]. split; [|discriminate]. intros _.
      apply (told_same c); auto; [|discriminate|split; discriminate]. apply dull_other; [discriminate|apply dull_close].
    - intros [= <- <- <- <-]. split; [discriminate|]. split; [|discriminate]. intros _. apply (told_same c); auto; solve [apply dull_nil | congruence].
  Qed.
  Lemma told_internal fuel : forall s c w v c' ev w' tr ms, Forall rd_ok (sc_rd s) -> told_until c tr ms -> internal_process W app cs T fuel s c w = Ret (v, c', ev, w') ->
    (v = Exception -> told (tr ++ ev) (ms ++ internal_debug W app cs T says thrown unhandled fuel s c w)) /\
    (v <> Exception -> told_until c' (tr ++ ev) (ms ++ internal_debug W app cs T says thrown unhandled fuel s c w)) /\
    (v = Return WantRead -> c_state c' = AwaitingFrame -> incomplete (c_rbuf c')).
  Proof.
    induction fuel as [|n IH]; intros s c w v c' ev w' tr ms Hok H; [discriminate|]. cbn [internal_process internal_debug].
    destruct (match c_state c with AwaitingHandshake => handle_handshake (sc_hs s) c | _ => (None, c, [], sc_hs s) end) as [[[r c0] ev0] hs'] eqn:Eh.
    assert (K : told_until c0 (tr ++ ev0) ms /\ c_rbuf c0 = c_rbuf c /\ match r with Some _ => c_state c0 = AwaitingHandshake | None => shaken c0 end).
    { revert Eh. unfold handle_handshake, shaken. destruct (c_state c) eqn:Es.
      2-6: intros [= <- <- <- <-]; rewrite Es, app_nil_r; split; [exact H|split; [reflexivity|discriminate]].
      destruct (sc_hs s) as [|[? [|[]]] ?]; intros [= <- <- <- <-]; rewrite ?app_nil_r; (split; [|split; [reflexivity|assumption || discriminate]]); try exact H.
      all: rewrite <- (app_nil_r ms); apply (told_same c); auto using dull_nil; try (rewrite Es; intuition congruence); try discriminate. }
    destruct K as (K & Er & Ks). destruct r.
    { intros [= <- <- <- <-]. split; [discriminate|]. rewrite app_nil_r. split; [intros _; exact K|]. rewrite Ks. discriminate. }
    destruct (flush_write_buffer (sc_wr s) c0) as [[c1 ev1] wr'] eqn:Ef. pose proof (flush_shaken _ _ _ _ _ Ks Ef) as K3.
    pose proof (told_flush _ _ _ _ _ _ _ Ef (told_same c0 c0 _ [] ms _ K eq_refl eq_refl (dull_update (c_state c) (c_state c0)) (fun x => x) (fun x y => conj x y))) as H1.
    rewrite app_nil_r, <- !app_assoc in H1.
    destruct (c_wbuf c1) eqn:Ew; [|intros [= <- <- <- <-]; split; [discriminate|]; split; [intros _; rewrite app_nil_r; exact H1|discriminate]].
    destruct (fill_read_buffer (sc_rd s) c1) as [[c2 ev2] rd'] eqn:El. pose proof (fill_rest rd_ok _ _ _ _ _ El Hok) as Hok'.
    assert (K4 : shaken c2) by exact (proj2 (fill_state _ _ _ _ _ El) K3).
    assert (H2 : told_until c2 ((tr ++ ev0 ++ ev1) ++ ev2) (ms ++ update_debug (c_state c) (c_state c0) ++ flush_debug (sc_wr s) c0 ++ fill_debug (sc_rd s) c1)).
    { pose proof (told_fill _ _ _ _ _ _ _ Hok El H1) as H2. rewrite <- (app_nil_r ((tr ++ ev0 ++ ev1) ++ ev2)).
      replace (ms ++ update_debug (c_state c) (c_state c0) ++ flush_debug (sc_wr s) c0 ++ fill_debug (sc_rd s) c1)
        with ((ms ++ update_debug (c_state c) (c_state c0) ++ flush_debug (sc_wr s) c0) ++ fill_debug (sc_rd s) c1) by now rewrite <- !app_assoc.
      apply (told_same c2); auto. apply dull_fill. }
    destruct (Conn.dispatch W app cs T c2 w) as [[[[v3 c3] ev3] w3]| | |] eqn:Ed; cbn [obind]; [|discriminate..].
    destruct (told_dispatch _ _ _ _ _ _ _ _ K4 H2 Ed) as (X & Y & Z). rewrite <- !app_assoc in X, Y. destruct v3.
    - destruct (internal_process W app cs T n _ c3 w3) as [[[[v4 c4] ev4] w4]| | |] eqn:Ei; cbn [obind]; [|discriminate..].
      intros [= <- <- <- <-]. specialize (Y ltac:(discriminate)). eapply IH in Ei; [|exact Hok'|exact Y]. rewrite <- !app_assoc in Ei. exact Ei.
    - intros [= <- <- <- <-]. rewrite app_nil_r. auto.
    - intros [= <- <- <- <-]. split; [intros _|split; [now intros N|discriminate]]. specialize (X eq_refl).
      match goal with |- told _ (ms ++ ?a ++ ?b ++ ?c ++ ?d ++ ?e) => replace (ms ++ a ++ b ++ c ++ d ++ e) with ((ms ++ a ++ b ++ c ++ d) ++ e) by now rewrite <- !app_assoc end.
      destruct X as [X|(fs & o & rest & E1 & F & X)]; [left|right; exists fs, o, rest; split; [exact E1|split; [exact F|]]];
        (apply tells_more; [exact X|]; apply dull_other; [discriminate|apply dull_update]).
  Qed.
  Lemma verbose_told others t0 w0 A r c tr w ms : verbose W app cs T says thrown unhandled others t0 w0 A r c tr w ms ->
    told tr ms /\ (r <> Some DiscardConnection -> told_until c tr ms) /\ (r = Some WantRead -> c_state c = AwaitingFrame -> incomplete (c_rbuf c)).
  Proof.
    induction 1 as [|r c tr w w' ms _ IH Ho|r c tr w s r' c' ev w' ms _ IH Hr Hs Ha Hp]; [|exact IH|].
    { assert (B : told_until (fresh_conn t0) [] []) by (split; [constructor|left; repeat split; [constructor|discriminate]]).
      split; [now apply told_weak in B|]. split; [auto|discriminate]. }
    destruct IH as (_ & IH & _). specialize (IH Hr). unfold process in Hp. unfold process_debug.
    destruct (internal_process _ _ _ _ _ _ _ _) as [[[[v c1] ev1] w1]| | |] eqn:E; cbn [obind] in Hp; [|discriminate Hp..].
    assert (Hok : Forall rd_ok (sc_rd s)) by apply Hs.
    destruct (told_internal _ _ _ _ _ _ _ _ _ _ Hok IH E) as (X & Y & Z).
    destruct v; try discriminate Hp; injection Hp as <- <- <- <-.
    - specialize (Y ltac:(discriminate)). split; [now apply told_weak in Y|]. split; [auto|]. intros [= ->]. auto.
    - split; [auto|]. split; [now intros N|discriminate].
  Qed.
End Tales.
