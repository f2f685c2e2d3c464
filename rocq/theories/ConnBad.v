(** Malformed frames make the server read out of bounds whenever they arrive. *)
From Verif Require Import Base BaseLemmas SpecFrames SpecHpack SpecHpackEnc Huffman DynTable HpackDec HpackDecProofs HpackEnc
  Frames FramesProofs Http Conn SpecConn ConnLemmas ConnRule ConnBasic ConnTerm ConnRun ConnSpec ConnMain ConnDet ConnMore.

Lemma answered_blocks ins txs outs : answered ins txs outs -> forall txs' outs', answered ins txs' outs' ->
  map tx_block txs = map tx_block txs'.
Proof.
  induction 1 as [|ins txs outs fl st p H IH Hf Hm|ins txs outs fl st p H IH Hf
                  |ins txs outs fl st p tx fs H IH Hh Hv Hr|ins txs outs f H IH H1 H4 H7]; intros txs' outs' H';
    match type of H' with answered ?x _ _ => remember x as l eqn:El end;
    destruct H' as [|ins' txs' outs' fl' st' p' H' Hf' Hm'|ins' txs' outs' fl' st' p' H' Hf'
                  |ins' txs' outs' fl' st' p' tx' fs' H' Hh' Hv' Hrs'|ins' txs' outs' f' H' H1' H4' H7'];
    try (apply app_inj_tail in El as [-> E]); try discriminate; eauto;
    try (symmetry in El; now apply app_eq_nil in El as []); try (now apply app_eq_nil in El as []);
    try (subst; exfalso; now first [apply H4|apply H1|apply H1'|apply H4']).
  injection E as -> -> ->. rewrite !map_app. cbn [map]. rewrite (IH _ _ H'), (headers_payload_fun _ _ _ _ Hh Hh'). reflexivity.
Qed.

Lemma blocks_split p st bs b hss st2 : rfc_blocks p st (bs ++ [b]) hss st2 ->
  exists hss1 l m hs, rfc_blocks p st bs hss1 (l, m) /\ rfc_block p (l, m) b hs st2.
Proof.
  revert st hss. induction bs as [|b1 bs IH]; intros st hss H; inversion H; subst.
  - match goal with H : rfc_blocks _ _ [] _ _ |- _ => inversion H; subst end. destruct st as [l m].
    exists [], l, m, hs. split; [constructor|assumption].
  - destruct (IH _ _ ltac:(eassumption)) as (hss1 & l & m & hs1 & H1 & H2). exists (hs :: hss1), l, m, hs1. split; [|exact H2].
    econstructor; eauto.
Qed.

(** No frame is a proper beginning of another. *)
Lemma frame_prefix f g o x : all_bytes (o ++ x) -> frame_octets f (o ++ x) -> frame_octets g o ->
  lenZ (w_payload f) <= 16384 -> lenZ (w_payload g) <= 16384 -> x = [].
Proof.
  intros Hb Hf Hg Lf Lg.
  destruct (frames_prefix [f] (o ++ x) [] [g] o x) as [(more & om & E & _ & Ex & _)|(h & more & fo & r & E & _)];
    try (now rewrite app_nil_r); try (apply frames_octets_one; assumption); try (constructor; auto).
  - injection E as <- <-. symmetry in Ex. now apply app_eq_nil in Ex as [].
  - discriminate.
Qed.

Section Bad.
  Variable W : Type.
  Variable app : request -> W -> W * app_answer.
  Variable cs : bool.
  Variable T : tree.
  Variable others : W -> W -> Prop.
  Variable t0 : Z.
  Variable w0 : W.
  Hypothesis HT : is_tree T.
  Notation session := (session W app cs T others t0 w0).

  Hypothesis Happ : answers_ok cs app.

  Lemma malformed_undefined os fs d e w ev txs outs f o : ran W app cs T others w0 os fs d e w ev ->
    answered (map wf fs) txs outs -> chunk o f -> malformed txs (wf f) ->
    process_frame W app cs T f d e w = Undef.
  Proof.
    intros Hran Ha Hc Hm.
    destruct (ran_answered W app cs T others w0 ltac:(intros rq wa wb rs Ea; apply (Happ _ _ _ _ Ea)) _ _ _ _ _ _ Hran)
      as (txs' & outs' & Hch & Hans & _ & _ & _ & Hdec & _ & Hbl & _ & _).
    pose proof (answered_blocks _ _ _ Ha _ _ Hans) as Eb.
    unfold process_frame.
    destruct Hm as [Et Hl|Et Hf Hl|r1 r2 hss st Et Hp Hb Hbad].
    - change (f_type f = 8) in Et. rewrite Et. change (8 =? FRAME_TYPE_SETTINGS) with false.
      change (8 =? FRAME_TYPE_HEADERS) with false. change (8 =? FRAME_TYPE_WINDOW_UPDATE) with true. cbn iota.
      unfold read_window_update, subspan_first. cbn [wf w_payload] in Hl. unfold lenZ in Hl.
      replace (length (f_payload f) <? 4)%nat with true by (symmetry; apply Nat.ltb_lt; lia). reflexivity.
    - change (f_type f = 1) in Et. rewrite Et. change (1 =? FRAME_TYPE_SETTINGS) with false.
      change (1 =? FRAME_TYPE_HEADERS) with true. cbn iota. unfold headers_block. change 32 with (2 ^ 5).
      rewrite has_flag_bit by lia. cbn [wf w_flags w_payload] in Hf, Hl. rewrite Hf. unfold subspan_from. unfold lenZ in Hl.
      replace (length (f_payload f) <? 5)%nat with true by (symmetry; apply Nat.ltb_lt; lia). reflexivity.
    - change (f_type f = 1) in Et. rewrite Et. change (1 =? FRAME_TYPE_SETTINGS) with false.
      change (1 =? FRAME_TYPE_HEADERS) with true. cbn iota.
      cbn [wf w_flags w_payload] in Hp.
      assert (Eh : headers_block f = Ret (r1 ++ r2)).
      { destruct (headers_block f) as [b| | |] eqn:Eh.
        - apply headers_block_payload in Eh. f_equal. exact (headers_payload_fun _ _ _ _ Eh Hp).
        - exfalso. revert Eh. unfold headers_block, subspan_from. destruct (has_flag f 32); [destruct (length _ <? 5)%nat|]; discriminate.
        - exfalso. revert Eh. unfold headers_block, subspan_from. change 32 with (2 ^ 5). rewrite has_flag_bit by lia.
          destruct Hp as (x & y & E & Hx & _ & _). destruct (Z.testbit (f_flags f) 5); [|discriminate].
          replace (length (f_payload f) <? 5)%nat with false; [discriminate|].
          symmetry. apply Nat.ltb_ge. rewrite E. unfold lenZ in Hx. rewrite !app_length. cbn [length Datatypes.app]. lia.
        - exfalso. revert Eh. unfold headers_block, subspan_from. destruct (has_flag f 32); [destruct (length _ <? 5)%nat|]; discriminate. }
      rewrite Eh. cbn [obind].
      pose proof (headers_block_bytes f _ (chunk_bytes _ _ Hc) Eh) as Hbb.
      apply blocks_split in Hb as (hss1 & l & m & hs & Hb1 & Hb2). rewrite Eb in Hb1.
      destruct (is_tree_complete T HT _ _ _ _ Hbl Hb1) as (t & Et' & El & Em). rewrite Hdec in Et'. injection Et' as _ <-.
      rewrite <- El, <- Em in Hb2. pose proof HT as [HT'].
      rewrite (bad_index_undefined T d r1 r2 hs st HT'); auto.
      exists (map tx_block txs'), (map tx_fields txs'). auto.
  Qed.

  Lemma try_read_chunk_undef c w f : chunk (c_rbuf c) f -> process_frame W app cs T f (c_dec c) (c_enc c) w = Undef ->
    try_read_frame W app cs T c w = Undef.
  Proof.
    intros (H9 & _ & Eh & Ep & El & Hm) Eu. unfold try_read_frame. replace (lenZ (c_rbuf c) <? 9) with false by lia.
    rewrite Eh. cbn [obind]. replace (fh_length (f_header f) >? MAX_FRAME_SIZE) with false by lia.
    replace (lenZ (c_rbuf c) <? 9 + fh_length (f_header f)) with false by lia.
    replace (Frame _ _) with f; [now rewrite Eu|].
    destruct f as [h p]. cbn [f_header f_payload] in *. f_equal. rewrite Ep. symmetry. apply firstn_all2.
    rewrite skipn_length. unfold lenZ in *. lia.
  Qed.

  Lemma every_malformed A c tr w ins o rest txs outs f more now s :
    session A (Some WantRead) c tr w -> scripts_ok s ->
    received tr = rfc_preface ++ o ++ rest -> frames_octets ins o -> frame_octets f (rest ++ more) ->
    Forall (fun f => lenZ (w_payload f) <= 16384) (ins ++ [f]) -> answered ins txs outs -> malformed txs f ->
    more <> [] -> sc_rd s = [(now, RdData more)] ->
    (delivered tr = queued tr \/ exists now n wr, sc_wr s = (now, WrOk n) :: wr /\ lenZ (queued tr) <= n) ->
    process W app cs T s c w = Undef.
  Proof.
    intros H Hok Hrec Hins Hf Hsm Ha Hm Hne Hrd Hwr.
    pose proof (session_run _ _ _ _ _ _ _ _ _ _ _ _ H) as [HP HQ].
    pose proof (buffer_bounded _ _ _ _ _ _ _ _ _ _ _ _ H) as HB.
    unfold ConnRun.P in HP. destruct (c_state c) eqn:Es; try easy.
    - destruct HP as (Hr & _). rewrite Hr in Hrec. discriminate.
    - destruct HP as (Hr & _). rewrite Hr in Hrec. rewrite Hrec, lenZ_app in HQ. change (lenZ rfc_preface) with 24 in HQ.
      pose proof (lenZ_nonneg (o ++ rest)). lia.
    - destruct HP as (os & fs & ev & Hr & Hacts & Hran). destruct HQ as [Hinc Hw].
      change CLIENT_PREFACE with rfc_preface in Hr. rewrite Hr in Hrec. apply app_inv_head in Hrec.
      pose proof (received_bytes _ _ _ _ _ _ _ _ _ _ _ _ H) as Hby. rewrite Hr in Hby.
      apply all_bytes_app in Hby as [_ Hby].
      apply Forall_app in Hsm as [Hsm Hsf]. apply Forall_inv in Hsf.
      assert (Hmb : all_bytes more /\ 1 <= lenZ more <= 16384).
      { unfold scripts_ok in Hok. rewrite Hrd in Hok. now apply Forall_inv in Hok. }
      destruct Hmb as [Hmb Hml].
      destruct (ran_answered W app cs T others w0 ltac:(intros rq wa wb rs Ea; apply (Happ _ _ _ _ Ea)) _ _ _ _ _ _ Hran)
        as (txs' & outs' & Hch & _).
      assert (Hfs : Forall (fun f => lenZ (w_payload f) <= 16384) (map wf fs)).
      { clear -Hch. induction Hch; constructor; auto. eapply chunk_small; eauto. }
      assert (Hboth : map wf fs = ins /\ c_rbuf c = rest).
      { rewrite Hrec in Hby.
        destruct (frames_prefix ins o rest (map wf fs) (concat os) (c_rbuf c)) as [(m & om & E & Hom & Er & Hsm')|(g & m & fo & r & _ & Hg & Er & _)]; auto.
        - now apply chunks_frames.
        - destruct m as [|g m].
          + rewrite app_nil_r in E. destruct Hom as (oms & Ho & Ec). inversion Ho; subst. now split.
          + exfalso. destruct Hom as (oms & Ho & Ec). inversion Ho as [|? g1 ? oms1 Hg Hos]; subst. apply Forall_inv in Hsm'.
            cbn [concat] in Hf, Hby. rewrite <- !app_assoc in Hf.
            apply frame_prefix with (g := g) in Hf; auto.
            * apply app_eq_nil in Hf as [_ Hf]. apply app_eq_nil in Hf as [_ Hf]. contradiction.
            * rewrite !app_assoc. apply all_bytes_app. split; [|exact Hmb]. apply all_bytes_app in Hby as [_ Hby].
              now rewrite <- !app_assoc in *.
        - exfalso. apply incomplete_partial in Hinc. rewrite Er in Hinc. exact (not_partial g fo r Hg Hinc). }
      destruct Hboth as [Efs Erest]. clear Hrec.
      destruct (frame_octets_chunk f (rest ++ more)) as (F & HF & EF); auto.
      { apply all_bytes_app. rewrite <- Erest. split; [apply HB|exact Hmb]. }
      assert (Eu : process_frame W app cs T F (c_dec c) (c_enc c) w = Undef).
      { eapply malformed_undefined; [exact Hran| |exact HF|rewrite EF; exact Hm]. rewrite Efs. exact Ha. }
      unfold process. cbn [internal_process Nat.add]. rewrite Es.
      assert (Efl : exists c1 ev1 wr', flush_write_buffer (sc_wr s) c = (c1, ev1, wr') /\ c_wbuf c1 = [] /\ c_rbuf c1 = c_rbuf c /\
                c_dec c1 = c_dec c /\ c_enc c1 = c_enc c /\ c_state c1 = AwaitingFrame).
      { unfold flush_write_buffer. destruct Hw as [Hw|(Hw & Hd & Hac)]; rewrite Hw.
        - exists c, [], (sc_wr s). auto 10.
        - assert (Hq : queued tr = write_settings) by (rewrite <- queued_acts, Hac; reflexivity).
          destruct Hwr as [Hwr|(t & n & wr & -> & Hn)]; [rewrite Hd, Hq in Hwr; discriminate|].
          rewrite Hq in Hn. cbv [write_settings]. cbn iota. eexists _, _, _. split; [reflexivity|]. cbn [c_wbuf c_rbuf c_dec c_enc c_state].
          split; [|auto]. apply skipn_all2. change (lenZ write_settings) with 27 in Hn.
          match goal with |- (length ?x <= _)%nat => change (length x) with 27%nat; change (lenZ x) with 27 end. lia. }
      destruct Efl as (c1 & ev1 & wr' & -> & -> & E1 & E2 & E3 & E4).
      assert (Hlen : lenZ rest + lenZ more = 9 + lenZ (w_payload f)).
      { rewrite <- lenZ_app. destruct Hf as (h & E & Hh). rewrite E, lenZ_app. apply header_len9 in Hh. unfold lenZ at 1. lia. }
      rewrite Hrd. cbn [fill_read_buffer]. rewrite E1, Erest. change TEMP_READ_BUFFER_SIZE with 16384. change MAX_READ_BUFFER_SIZE with 65536.
      replace (lenZ rest + 16384 >=? 65536) with false by lia.
      cbn [c_rbuf]. 
      assert (Ed : dispatch W app cs T (Conn (c_state c1) (rest ++ more) (c_wbuf c1) (c_dec c1) (c_enc c1) now) w = Undef).
      { unfold dispatch. cbn [c_state]. rewrite E4. apply try_read_chunk_undef with F; cbn [c_rbuf c_dec c_enc]; auto.
        rewrite E2, E3. exact Eu. }
      destruct (lenZ (rest ++ more) + 16384 >=? 65536); rewrite Ed; reflexivity.
  Qed.
End Bad.
