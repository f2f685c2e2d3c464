(** When processing is undefined, and what failing handlers amount to. *)
From Verif Require Import Base BaseLemmas SpecFrames SpecHpack SpecHpackEnc Huffman DynTable HpackDec HpackDecProofs HpackEnc
  Frames FramesProofs Http Conn SpecConn ConnLemmas ConnRule ConnBasic ConnTerm ConnRun ConnSpec ConnMain.

Lemma fill_available rd : forall c c' ev rd', fill_read_buffer rd c = (c', ev, rd') ->
  available rd = received ev ++ available rd'.
Proof.
  induction rd as [|[now [o|e]] rd IH]; intros c c' ev rd' E; cbn [fill_read_buffer] in E.
  - destruct (_ >=? _); now injection E as _ <- <-.
  - destruct (_ >=? _); [now injection E as _ <- <-|].
    destruct (fill_read_buffer rd _) as [[c2 ev2] rd2] eqn:E2. injection E as _ <- <-.
    apply IH in E2. unfold available in *. cbn [flat_map snd received]. rewrite E2, app_assoc. reflexivity.
  - destruct (_ >=? _); now injection E as _ <- <-.
Qed.
Lemma flush_received wr c c' ev wr' : flush_write_buffer wr c = (c', ev, wr') -> received ev = [].
Proof.
  unfold flush_write_buffer. destruct (c_wbuf c); [now intros [= _ <- _]|].
  destruct wr as [|[now [n|k|e]] wr]; now intros [= _ <- _].
Qed.

Section Undef.
  Variable W : Type.
  Variable app : request -> W -> W * app_answer.
  Variable cs : bool.
  Variable T : tree.
  Variable others : W -> W -> Prop.
  Variable t0 : Z.
  Variable w0 : W.
  Hypothesis HT : is_tree T.
  Notation session := (session W app cs T others t0 w0).
  Notation P := (P W app cs T others w0).

  Lemma fill_P rd : forall c tr w c' ev rd', P c tr w -> c_wbuf c = [] -> c_state c <> AwaitingHandshake ->
    fill_read_buffer rd c = (c', ev, rd') -> P c' (tr ++ ev) w.
  Proof.
    induction rd as [|[now [o|e]] rd IH]; intros c tr w c' ev rd' HP Hw Hs E; cbn [fill_read_buffer] in E.
    - destruct (_ >=? _); injection E as <- <- <-; now rewrite app_nil_r.
    - destruct (_ >=? _) eqn:Efull; [injection E as <- <- <-; now rewrite app_nil_r|].
      destruct (fill_read_buffer rd _) as [[c2 ev2] rd2] eqn:E2. injection E as <- <- <-.
      replace (tr ++ EvRead now o :: ev2) with ((tr ++ [EvRead now o]) ++ ev2) by now rewrite <- app_assoc.
      eapply IH; [| | |exact E2]; auto.
      eapply P_transport; eauto; cbn [c_rbuf c_wbuf c_state c_dec c_enc]; auto. cbn. now rewrite app_nil_r.
    - destruct (_ >=? _); [injection E as <- <- <-; now rewrite app_nil_r|]. injection E as <- <- <-.
      destruct e; try (eapply P_transport; eauto; cbn [c_rbuf c_wbuf c_state c_dec c_enc]; auto; cbn; now rewrite app_nil_r).
      + unfold ConnRun.P. cbn [set_state c_state c_wbuf]. eapply fault_dead; eauto. intros Hf. inversion Hf; subst. easy.
      + unfold ConnRun.P. cbn [set_state c_state c_wbuf]. eapply fault_dead; eauto. intros Hf. inversion Hf; subst. easy.
  Qed.

  Lemma loop_undef fuel : forall s c tr w, P c tr w -> buffered c -> tables_ok W app cs c -> Forall rd_ok (sc_rd s) ->
    internal_process W app cs T fuel s c w = Undef ->
    exists c2 tr2 w2 y, P c2 tr2 w2 /\ buffered c2 /\ tables_ok W app cs c2 /\ c_wbuf c2 = [] /\
      c_state c2 <> AwaitingHandshake /\ dispatch W app cs T c2 w2 = Undef /\
      received tr ++ available (sc_rd s) = received tr2 ++ y.
  Proof.
    induction fuel as [|fuel IH]; intros s c tr w HP HB HTb Hrd E; [discriminate|].
    cbn [internal_process] in E.
    set (H0 := match c_state c with AwaitingHandshake => handle_handshake (sc_hs s) c | _ => _ end) in E.
    assert (HH : (exists r c0 ev hs, H0 = (Some r, c0, ev, hs)) \/
                 (exists c0 ev0 hs, H0 = (None, c0, ev0, hs) /\ c_rbuf c0 = c_rbuf c /\ c_dec c0 = c_dec c /\
                    c_enc c0 = c_enc c /\ P c0 (tr ++ ev0) w /\ received ev0 = [] /\ c_state c0 <> AwaitingHandshake)).
    { subst H0. destruct (c_state c) eqn:Es;
        try (right; exists c, [], (sc_hs s); rewrite app_nil_r, Es; repeat split; auto; easy).
      unfold handle_handshake. destruct (sc_hs s) as [|[now [|[]]] hs'] eqn:Eh;
        try (left; eexists _, _, _, _; reflexivity).
      right. eexists _, _, _. do 4 (split; [reflexivity|]). split; [|split; [reflexivity|easy]].
      unfold ConnRun.P in *. rewrite Es in HP. cbn. destruct HP as (H1 & H2 & H3 & H4 & H5 & H6).
      rewrite received_app, delivered_app, acts_app, H1, H2, H4, H5. cbn. auto. }
    destruct HH as [(r & c0 & ev & hs & EH)|(c0 & ev0 & hs & EH & E1 & E2 & E3 & HP0 & Hr0 & Hs0)]; rewrite EH in E;
      [discriminate|]. clear EH H0.
    assert (HB0 : buffered c0) by (unfold buffered; now rewrite E1).
    assert (HT0 : tables_ok W app cs c0) by (unfold tables_ok; now rewrite E2, E3).
    clear E1 E2 E3.
    destruct (flush_write_buffer (sc_wr s) c0) as [[c1 ev1] wr'] eqn:Ef.
    pose proof (flush_rbuf _ _ _ _ _ Ef) as E1. pose proof (flush_tables _ _ _ _ _ Ef) as [E2 E3].
    pose proof (flush_state _ _ _ _ _ Ef Hs0) as Hs1.
    pose proof (flush_received _ _ _ _ _ Ef) as Hr1.
    assert (HB1 : buffered c1) by (unfold buffered; now rewrite E1).
    assert (HT1 : tables_ok W app cs c1) by (unfold tables_ok; now rewrite E2, E3).
    assert (HP1 : P c1 ((tr ++ ev0) ++ ev1) w) by (eapply flush_P; eauto).
    destruct (c_wbuf c1) as [|x xs] eqn:Ew; [|discriminate].
    destruct (fill_read_buffer (sc_rd s) c1) as [[c2 ev2] rd'] eqn:Efill.
    pose proof (fill_rest _ _ _ _ _ _ Efill Hrd) as Hrd2.
    destruct (fill_buffered W app others w0 _ _ _ _ _ Hrd HB1 Efill) as (HB2 & E5 & E6).
    destruct (fill_state _ _ _ _ _ Efill) as [Hw2 Hs2]. specialize (Hs2 Hs1). rewrite Ew in Hw2.
    assert (HT2 : tables_ok W app cs c2) by (unfold tables_ok; now rewrite E5, E6).
    assert (HP2 : P c2 (((tr ++ ev0) ++ ev1) ++ ev2) w) by (eapply fill_P; eauto).
    pose proof (fill_available _ _ _ _ _ Efill) as Hav.
    assert (HR : received (((tr ++ ev0) ++ ev1) ++ ev2) = received tr ++ received ev2).
    { rewrite !received_app, Hr0, Hr1, !app_nil_r. reflexivity. }
    destruct (dispatch W app cs T c2 w) as [[[[v c3] ev3] w3]| | |] eqn:Ed; cbn [obind] in E; try discriminate.
    2: { exists c2, (((tr ++ ev0) ++ ev1) ++ ev2), w, (available rd'). rewrite HR, Hav, app_assoc. auto 10. }
    destruct v; try discriminate.
    destruct (internal_process W app cs T fuel (Scripts hs rd' wr') c3 w3) as [[[[v4 c4] ev4] w4]| | |] eqn:El;
      cbn [obind] in E; try discriminate.
    pose proof Ed as Ed2. apply dispatch_quiet in Ed2 as (Hq & _ & _); [|apply HB2|auto].
    apply qos_received in Hq as [Hq _].
    pose proof (dispatch_run W app cs T others w0 _ _ _ _ _ _ _ HP2 HB2 Hw2 Hs2 Ed) as HP3. cbn beta iota in HP3.
    destruct (IH (Scripts hs rd' wr') c3 _ w3 HP3 ltac:(eapply dispatch_buffered; eauto) ltac:(eapply dispatch_tables; eauto) Hrd2 El)
      as (c5 & tr5 & w5 & y & H1 & H2 & H3 & H4 & H5 & H6 & H7).
    exists c5, tr5, w5, y. do 6 (split; [auto|]). rewrite <- H7. cbn [sc_rd].
    rewrite received_app, HR, Hq, app_nil_r, Hav, app_assoc. reflexivity.
  Qed.

  Lemma try_read_frame_undef c w : all_bytes (c_rbuf c) -> try_read_frame W app cs T c w = Undef ->
    exists o rest f, c_rbuf c = o ++ rest /\ chunk o f /\ process_frame W app cs T f (c_dec c) (c_enc c) w = Undef.
  Proof.
    intros Hb. unfold try_read_frame.
    destruct (lenZ (c_rbuf c) <? 9) eqn:E9; [discriminate|].
    destruct (parse_total (c_rbuf c) ltac:(lia) Hb) as (h & E & Hlen & _).
    rewrite E. cbn [obind]. destruct (fh_length h >? MAX_FRAME_SIZE) eqn:Em; [discriminate|].
    destruct (lenZ (c_rbuf c) <? 9 + fh_length h) eqn:Et; [discriminate|].
    set (n := Z.to_nat (fh_length h)).
    destruct (process_frame _ _ _ _ _ _ _ _) as [[[[[fe d] e] w1] ev1]| | |] eqn:Ep; cbn [obind]; try discriminate.
    { destruct fe; discriminate. }
    intros _.
    assert (Hlen' : length (firstn (9 + n) (c_rbuf c)) = (9 + n)%nat).
    { rewrite firstn_length. unfold lenZ in *. lia. }
    exists (firstn (9 + n) (c_rbuf c)), (skipn (9 + n) (c_rbuf c)), (Frame h (firstn n (skipn 9 (c_rbuf c)))).
    split; [now rewrite firstn_skipn|]. split; [|exact Ep].
    unfold chunk. cbn [f_header f_payload]. unfold lenZ in *. rewrite Hlen'. repeat split; try lia.
    - now apply all_bytes_firstn.
    - rewrite firstn_firstn. now replace (Init.Nat.min 9 (9 + n)) with 9%nat by lia.
    - now rewrite skipn_firstn_comm, Nat.add_comm, Nat.add_sub.
  Qed.

  Lemma dispatch_undef c tr w : P c tr w -> buffered c -> c_state c <> AwaitingHandshake ->
    dispatch W app cs T c w = Undef ->
    exists os fs ev o f y, received tr = CLIENT_PREFACE ++ concat os ++ o ++ y /\ chunk o f /\
      ran W app cs T others w0 os fs (c_dec c) (c_enc c) w ev /\
      process_frame W app cs T f (c_dec c) (c_enc c) w = Undef.
  Proof.
    intros HP [Hb _] Hs E. unfold dispatch in E. unfold ConnRun.P in HP.
    destruct (c_state c) eqn:Es; try congruence; try discriminate.
    - destruct HP as (Hr & _ & _ & _ & Hran). unfold read_preface in E.
      change (lenZ CLIENT_PREFACE) with 24 in E. change (length CLIENT_PREFACE) with 24%nat in E.
      destruct (lenZ (c_rbuf c) <? 24) eqn:E24; [discriminate|].
      destruct (bytes_eqb (firstn 24 (c_rbuf c)) CLIENT_PREFACE) eqn:Ep; [|discriminate].
      apply bytes_eqb_eq in Ep.
      destruct (try_read_frame _ _ _ _ _ _) as [[[[v2 c2] ev2] w2]| | |] eqn:Et; cbn [obind] in E; try discriminate.
      apply try_read_frame_undef in Et as (o & rest & f & Er & Hc & Ef).
      + cbn [discard set_state enqueue c_rbuf c_dec c_enc] in *.
        exists [], [], [], o, f, rest. rewrite Hr. split; [|auto].
        rewrite <- Ep. cbn [concat Datatypes.app]. change (Z.to_nat 24) with 24%nat in Er.
        rewrite <- Er. now rewrite firstn_skipn.
      + cbn [discard set_state enqueue c_rbuf]. now apply all_bytes_skipn.
    - destruct HP as (os & fs & ev & Hr & _ & Hran). apply try_read_frame_undef in E as (o & rest & f & Er & Hc & Ef); auto.
      exists os, fs, ev, o, f, rest. rewrite Hr, Er. auto.
    - unfold close in E. rewrite Es in E. discriminate.
  Qed.

  Lemma rfc_blocks_snoc pr bs : forall st hss st1 b hs st2, rfc_blocks pr st bs hss st1 -> rfc_block pr st1 b hs st2 ->
    rfc_blocks pr st (bs ++ [b]) (hss ++ [hs]) st2.
  Proof.
    induction 1; intros H1; cbn [Datatypes.app]; econstructor; eauto using blocks_nil.
  Qed.

  (** C72 *)
  Lemma undefined_only_if_malformed A r c tr w s : session A r c tr w -> r <> Some DiscardConnection -> scripts_ok s ->
    answers_ok cs app -> process W app cs T s c w = Undef ->
    exists ins o f fo txs outs y,
      received tr ++ available (sc_rd s) = rfc_preface ++ o ++ fo ++ y /\
      frames_octets ins o /\ frame_octets f fo /\ Forall (fun f => lenZ (w_payload f) <= 16384) (ins ++ [f]) /\
      answered ins txs outs /\ malformed txs f.
  Proof.
    intros H Hr Hok Happ E. pose proof (session_run _ _ _ _ _ _ _ _ _ _ _ _ H) as HQ.
    assert (HP : P c tr w) by (destruct r as [[]|]; [apply HQ|apply HQ|congruence|exact HQ]). clear HQ.
    apply session_tables in H as [Ht HB]; [|exact HT].
    unfold process in E.
    destruct (internal_process W app cs T _ s c w) as [[[[v c1] ev1] w1]| | |] eqn:El; cbn [obind] in E; try discriminate.
    { destruct v; discriminate. }
    destruct (loop_undef _ _ _ _ _ HP HB Ht Hok El) as (c2 & tr2 & w2 & y & HP2 & HB2 & [Hd2 He2] & Hw2 & Hs2 & Ed & Hav).
    destruct (dispatch_undef _ _ _ HP2 HB2 Hs2 Ed) as (os & fs & ev & o & f & y2 & Hrec & Hc & Hran & Ef).
    destruct (ran_answered W app cs T others w0 ltac:(intros rq wa wb rs Ea; apply (Happ _ _ _ _ Ea)) _ _ _ _ _ _ Hran)
      as (txs & outs & Hch & Hans & _ & _ & _ & Hdec & _ & Hbl & _ & _).
    apply process_frame_undef in Ef; auto; [|now apply chunk_bytes with o].
    exists (map wf fs), (concat os), (wf f), o, txs, outs, (y2 ++ y).
    split; [rewrite Hav, Hrec, preface_eq, <- !app_assoc; reflexivity|].
    split; [now apply chunks_frames|]. split; [now apply chunk_frame_octets|].
    split; [|split; [exact Hans|]].
    { apply Forall_app. split; [|constructor; [eapply chunk_small; eauto|constructor]].
      clear -Hch. induction Hch; constructor; auto. eapply chunk_small; eauto. }
    destruct Ef as [(Et & Hl)|[(Et & Hf & Hl)|(Et & b & Eb & Eu)]].
    - now apply malformed_window_update.
    - apply malformed_priority; auto. change (has_flag f 32) with (has_flag f (2 ^ 5)) in Hf.
      rewrite (has_flag_bit f 5) in Hf by lia. exact Hf.
    - assert (Hbb : all_bytes b) by (apply (headers_block_bytes f b); auto; now apply chunk_bytes with o).
      assert (Hrt : reachable_table T (c_dec c2)) by (exists (map tx_block txs), (map tx_fields txs); auto).
      pose proof HT as [HT'].
      pose proof (defined_iff T (c_dec c2) b HT' Hrt Hbb) as D. rewrite Eu in D.
      destruct D as (r1 & r2 & hs & l & m & -> & Hb1 & Hbad).
      apply (malformed_block _ _ r1 r2 (map tx_fields txs ++ [hs]) (l, m)); auto; [now apply headers_block_payload|].
      apply (rfc_blocks_snoc _ _ _ _ (dt_table (c_dec c2), dt_max (c_dec c2))); [|exact Hb1].
      apply (is_tree_sound T HT); auto.
  Qed.
End Undef.

(** ** C38 *)
Section Fails.
  Variable W : Type.
  Variable app : request -> W -> W * app_answer.
  Variable cs : bool.
  Variable T : tree.
  Variable others : W -> W -> Prop.
  Variable t0 : Z.
  Variable w0 : W.

  Lemma process_request_fails hs w : process_request W (recovering app) hs w = process_request W app hs w.
  Proof.
    unfold process_request, recovering. destruct (get_header hs _); [|reflexivity]. destruct (get_header hs _); [|reflexivity].
    destruct (app _ w) as [w' [r| |]]; reflexivity.
  Qed.
  Lemma process_frame_fails f d e w : process_frame W (recovering app) cs T f d e w = process_frame W app cs T f d e w.
  Proof.
    unfold process_frame. destruct (_ =? _); [reflexivity|]. destruct (_ =? _); [|reflexivity].
    destruct (headers_block f) as [b| | |]; cbn [obind]; try reflexivity.
    destruct (hpack_decode T d b) as [[[hs|er] d']| | |]; try reflexivity.
    rewrite process_request_fails. reflexivity.
  Qed.
  Lemma try_read_frame_fails c w : try_read_frame W (recovering app) cs T c w = try_read_frame W app cs T c w.
  Proof.
    unfold try_read_frame. destruct (_ <? _); [reflexivity|].
    destruct (fh_parse _) as [h| | |]; cbn [obind]; try reflexivity.
    destruct (_ >? _); [reflexivity|]. destruct (_ <? _); [reflexivity|]. now rewrite process_frame_fails.
  Qed.
  Lemma dispatch_fails c w : dispatch W (recovering app) cs T c w = dispatch W app cs T c w.
  Proof.
    unfold dispatch. destruct (c_state c); try reflexivity; [|now rewrite try_read_frame_fails].
    destruct (read_preface c) as [[[] c'] ev]; try reflexivity. now rewrite try_read_frame_fails.
  Qed.
  Lemma internal_process_fails fuel : forall s c w,
    internal_process W (recovering app) cs T fuel s c w = internal_process W app cs T fuel s c w.
  Proof.
    induction fuel as [|fuel IH]; intros s c w; [reflexivity|]. cbn [internal_process].
    destruct (match c_state c with AwaitingHandshake => _ | _ => _ end) as [[[[r|] c0] ev0] hs']; [reflexivity|].
    destruct (flush_write_buffer _ _) as [[c1 ev1] wr']. destruct (c_wbuf c1); [|reflexivity].
    destruct (fill_read_buffer _ _) as [[c2 ev2] rd']. rewrite dispatch_fails.
    destruct (dispatch W app cs T c2 w) as [[[[v c3] ev3] w3]| | |]; cbn [obind]; try reflexivity.
    destruct v; try reflexivity. now rewrite IH.
  Qed.
  Lemma process_fails s c w : process W (recovering app) cs T s c w = process W app cs T s c w.
  Proof. unfold process. now rewrite internal_process_fails. Qed.

  Lemma session_fails A r c tr w :
    session W app cs T others t0 w0 A r c tr w <-> session W (recovering app) cs T others t0 w0 A r c tr w.
  Proof.
    split; intros H.
    - induction H as [|r c tr w w' H IH Ho|r c tr w s r' c' ev w' H IH Hr Hs Ha E].
      + apply session_start.
      + eapply session_others; [exact IH|exact Ho].
      + rewrite <- process_fails in E. eapply session_process; [exact IH|exact Hr|exact Hs|exact Ha|exact E].
    - induction H as [|r c tr w w' H IH Ho|r c tr w s r' c' ev w' H IH Hr Hs Ha E].
      + apply session_start.
      + eapply session_others; [exact IH|exact Ho].
      + rewrite process_fails in E. eapply session_process; [exact IH|exact Hr|exact Hs|exact Ha|exact E].
  Qed.
End Fails.
