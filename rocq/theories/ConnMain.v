(** From the history of a session to statements about the whole conversation. *)
From Verif Require Import Base BaseLemmas SpecFrames SpecHpack SpecHpackEnc Huffman DynTable HpackDec HpackDecProofs HpackEnc HpackEncProofs HpackEncSize HpackEncLost HpackEncKept
  Frames FramesProofs Http Conn SpecConn ConnLemmas ConnRule ConnBasic ConnTerm ConnRun ConnSpec.

Lemma incomplete_partial r : incomplete r -> partial_frame r.
Proof.
  intros Hi. split.
  2:{ intros len (h & typ & fl & st & r' & -> & Hh). pose proof (header_len9 _ _ _ _ _ Hh) as L9.
      destruct Hi as [Hi|(hd & E & Hm & _)].
      - rewrite lenZ_app in Hi. pose proof (lenZ_nonneg r'). unfold lenZ at 1 in Hi. rewrite L9 in Hi. lia.
      - rewrite firstn_exact in E by auto. rewrite (fh_parse_spec _ _ _ _ _ Hh) in E. injection E as <-. exact Hm. }
  intros f o r' (h & -> & Hh) ->. pose proof (header_len9 _ _ _ _ _ Hh) as L9.
  rewrite <- app_assoc in Hi. assert (L : lenZ h = 9) by (unfold lenZ; now rewrite L9).
  pose proof (lenZ_nonneg (w_payload f)). pose proof (lenZ_nonneg r').
  destruct Hi as [Hi|(hd & E & _ & Hi)]; rewrite !lenZ_app, L in Hi; [lia|].
  rewrite firstn_exact in E by auto. rewrite (fh_parse_spec _ _ _ _ _ Hh) in E. injection E as <-. cbn [fh_length] in Hi. lia.
Qed.

Lemma oversized_announces r len : announces r len -> 16384 < len -> oversized r.
Proof.
  intros (h & typ & fl & st & r' & -> & Hh) Hl. pose proof (header_len9 _ _ _ _ _ Hh) as L9.
  split; [rewrite lenZ_app; unfold lenZ at 1; rewrite L9; pose proof (lenZ_nonneg r'); lia|].
  eexists. rewrite firstn_exact by auto. rewrite (fh_parse_spec _ _ _ _ _ Hh). split; [reflexivity|exact Hl].
Qed.

Lemma announces_oversized r : all_bytes r -> oversized r -> exists len, announces r len /\ 16384 < len.
Proof.
  intros Hb (H9 & h & E & Hm). destruct (parse_total r H9 Hb) as (h' & E' & _ & _ & _ & F).
  rewrite E in E'. injection E' as <-. exists (fh_length h). split; [|exact Hm].
  exists (firstn 9 r), (fh_type h), (fh_flags h), (fh_stream h), (skipn 9 r). split; [now rewrite firstn_skipn|exact F].
Qed.

Lemma visible_acts tr : visible tr = acts tr.
Proof. reflexivity. Qed.

Section Main.
  Variable W : Type.
  Variable app : request -> W -> W * app_answer.
  Variable cs : bool.
  Variable T : tree.
  Variable others : W -> W -> Prop.
  Variable t0 : Z.
  Variable w0 : W.
  Notation process_frame := (process_frame W app cs T).
  Notation session := (session W app cs T others t0 w0).
  Notation table0 := (dt_init DEFAULT_MAX_TABLE_SIZE).
  Notation ran := (ran W app cs T others w0).
  Notation ends := (ends W app cs T).
  Notation thrown := (thrown W app cs T).

  Definition before_preface (r : option result) (tr : trace) : Prop :=
    delivered tr = [] /\ (acts tr = [] \/ (r = Some DiscardConnection /\ acts tr = [bye] /\ ~ fault_free tr)) /\
    (r = None -> received tr = []) /\
    (r = Some WantRead -> lenZ (received tr) < 24) /\ r <> Some WantWrite /\
    (r = Some DiscardConnection -> fault_free tr ->
       24 <= lenZ (received tr) /\ firstn 24 (received tr) <> CLIENT_PREFACE).

  Definition after_preface (r : option result) (tr : trace) : Prop :=
    exists os fs d e w ev rest last,
      received tr = CLIENT_PREFACE ++ concat os ++ rest /\ ran os fs d e w ev /\
      acts tr = EvQueue write_settings :: ev ++ last /\
      (last = [] \/ (r = Some DiscardConnection /\ (last = [bye] \/ thrown d e w rest last))) /\
      (r = Some WantRead -> incomplete rest) /\ r <> None /\
      (r = Some DiscardConnection -> fault_free tr ->
         (exists s, ends d e w rest s /\ last = match s with StProtocolError => [bye] | _ => [] end) \/
         thrown d e w rest last).

  Lemma session_none A c tr w : session A None c tr w -> tr = [] /\ c = fresh_conn t0.
  Proof.
    intros H. remember None as r eqn:E. induction H; [auto|auto|discriminate].
  Qed.

  Lemma session_story A r c tr w : session A r c tr w -> before_preface r tr \/ after_preface r tr.
  Proof.
    intros H. pose proof (session_run W app cs T others t0 w0 A r c tr w H) as HR.
    destruct r as [r|].
    2: { apply session_none in H as [-> _]. left. split; [easy|]. split; [now left|]. split; [easy|].
         split; [discriminate|]. split; discriminate. }
    assert (LIVE : forall s, r <> DiscardConnection -> (s = ClientClosed \/ s = StProtocolError) ->
              r = WantWrite -> post_dead W app cs T others w0 s tr -> after_preface (Some r) tr).
    { intros s Hr _ Hw (os & fs & d & e & w1 & ev & rest & H1 & H2 & H3 & H4).
      exists os, fs, d, e, w1, ev, rest, []. rewrite app_nil_r. subst r.
      split; [auto|]. split; [auto|]. split; [auto|]. split; [now left|]. split; [discriminate|]. split; discriminate. }
    destruct r; cbn [Q] in HR.
    - destruct HR as [HP HR]. unfold P in HP. destruct (c_state c); try easy.
      + left. destruct HP as (H1 & _ & _ & H4 & H5 & _). split; [auto|]. split; [now left|].
        split; [discriminate|]. split; [intros _; rewrite H1; reflexivity|]. split; discriminate.
      + left. destruct HP as (H1 & _ & H4 & H5 & _). split; [auto|]. split; [now left|].
        split; [discriminate|]. split; [intros _; now rewrite H1|]. split; discriminate.
      + right. destruct HP as (os & fs & ev & H1 & H2 & H3).
        exists os, fs, (c_dec c), (c_enc c), w, ev, (c_rbuf c), []. rewrite app_nil_r.
        split; [auto|]. split; [auto|]. split; [auto|]. split; [now left|]. split; [now intros _|]. split; discriminate.
    - destruct HR as [HP HR]. unfold P in HP. destruct (c_state c); try (decompose [and] HP; congruence).
      + right. destruct HP as (os & fs & ev & H1 & H2 & H3).
        exists os, fs, (c_dec c), (c_enc c), w, ev, (c_rbuf c), []. rewrite app_nil_r.
        split; [auto|]. split; [auto|]. split; [auto|]. split; [now left|]. split; [discriminate|]. split; discriminate.
      + easy.
      + right. destruct HP as [[? _]|HP]; [congruence|]. now apply (LIVE StProtocolError); auto.
      + right. destruct HP as [[? _]|HP]; [congruence|]. now apply (LIVE ClientClosed); auto.
    - destruct HR as [(H1 & H2 & H3 & H4)|[(H1 & H2 & H3 & H4)|[(H1 & H2 & H3)|
        (os & fs & d & e & w1 & ev & rest & last & H1 & H2 & H3 & H4)]]].
      + left. split; [auto|]. split; [now left|]. split; [discriminate|]. split; [discriminate|]. split; [discriminate|easy].
      + left. split; [auto|]. split; [now left|]. split; [discriminate|]. split; [discriminate|]. split; [discriminate|auto].
      + left. split; [auto|]. split; [destruct H1; auto|]. split; [discriminate|]. split; [discriminate|].
        split; [discriminate|easy].
      + right. exists os, fs, d, e, w1, ev, rest, last. split; [auto|]. split; [auto|]. split; [auto|].
        split. { destruct H4 as [[[->| ->] _]|H4]; auto. }
        split; [discriminate|]. split; [discriminate|]. intros _ Hff. destruct H4 as [[_ H4]|H4]; auto.
  Qed.

  Lemma received_bytes A r c tr w : session A r c tr w -> all_bytes (received tr).
  Proof.
    intros H. apply session_any in H.
    assert (Q : forall ev, quiet_or_shutdown ev -> received ev = []) by (intros ev Hq; apply qos_received in Hq; apply Hq).
    assert (K : forall (c0 : conn) tr w v c' ev w', all_bytes (received tr) -> all_bytes (c_rbuf c0) ->
              c_state c0 <> AwaitingHandshake ->
              dispatch W app cs T c0 w = Ret (v, c', ev, w') -> all_bytes (received (tr ++ ev))).
    { intros c0 tr0 w1 v c' ev w' Ht Hb Hs E. apply dispatch_quiet in E as (Hq & _); auto.
      rewrite received_app, (Q _ Hq), app_nil_r. exact Ht. }
    eapply (session_rule_buffered W app cs T others t0 w0 any any
      (fun _ tr _ => all_bytes (received tr)) (fun _ _ tr _ => all_bytes (received tr))) in H; auto.
    - destruct r; apply H.
    - constructor.
    - intros. rewrite received_app, app_nil_r. auto.
    - intros. rewrite received_app, app_nil_r. auto.
    - intros wr c1 tr1 w1 c2 ev wr' HP _ _ _ E. rewrite received_app.
      assert (received ev = []) as ->; [|rewrite app_nil_r; auto].
      unfold flush_write_buffer in E. destruct (c_wbuf c1); [injection E as _ <- _; reflexivity|].
      destruct wr as [|[now [n|k|e]] wr]; injection E as _ <- _; reflexivity.
    - intros. rewrite received_app. apply all_bytes_app. split; auto. cbn. now rewrite app_nil_r.
    - intros. rewrite received_app, app_nil_r. auto.
    - intros c1 tr1 w1 c2 ev w2 HP [Hb _] _ Hs E. eapply K; eauto.
    - intros c1 tr1 w1 r1 c2 ev w2 HP [Hb _] _ Hs E. eapply K; eauto.
    - intros c1 tr1 w1 c2 ev w2 HP [Hb _] _ Hs E. eapply K; eauto.
  Qed.

  Hypothesis HT : is_tree T.

  Lemma table_ok0 : table_ok table0.
  Proof. apply table_ok_init. Qed.

  Lemma ran_table os fs d e w ev : ran os fs d e w ev -> table_ok d.
  Proof.
    induction 1 as [|os fs d e w w' ev _ IH Ho|os fs d e w ev o f d' e' w' ev' _ IH Hc Hp].
    - apply table_ok0.
    - exact IH.
    - eapply process_frame_tables in Hp; [apply Hp|exact HT|exact IH|]. now apply chunk_bytes with o.
  Qed.

  Lemma throws_escape f d e w d' e' w' ev : table_ok d -> all_bytes (f_payload f) ->
    process_frame f d e w = Ret (FrameThrows, d', e', w', ev) ->
    exists rq, ev = [EvRequest rq None] /\ app rq w = (w', Escapes) /\ f_type f = 1.
  Proof.
    intros Hd Hp E. apply process_frame_inv in E.
    destruct E as [H|[H|[H|[H|[H|[H|H]]]]]]; try (decompose [and] H; congruence).
    destruct H as (Et & b & Eb & [(Ed & _)|[(er & _ & ? & _)|(hs & resp & evr & Ed & Er & H)]]).
    - exfalso. pose proof (is_tree_unique _ HT) as E. subst T.
      destruct (hpack_decode_outcome d b Hd (headers_block_bytes f b Hp Eb))
        as [(hs' & t2 & E' & _)|(r1 & r2 & hs' & t2 & _ & _ & _ & _ & [(E' & _)|(E' & _)])]; congruence.
    - discriminate.
    - destruct H as [(-> & _ & _ & ->)|(rs & -> & [(Ee & _)|(b' & data & _ & _ & ? & _)])].
      + apply process_request_inv in Er
          as [(_ & _ & ? & _)|(p & m & a & _ & _ & Ea & [(-> & _ & ->)|(r & _ & ? & _)])]; try discriminate.
        eauto.
      + destruct (hpack_encode_rou cs (rs_headers rs) e) as [(x & Ee')|Ee']; congruence.
      + discriminate.
  Qed.

  Lemma decode_seq_snoc_error bs : forall t hss t1 b er t2, decode_seq T t bs = Ret (Val hss, t1) ->
    hpack_decode T t1 b = Ret (Error er, t2) -> exists er' t3, decode_seq T t (bs ++ [b]) = Ret (Error er', t3).
  Proof.
    induction bs as [|b0 bs IH]; intros t hss t1 b er t2 E1 E2; cbn [decode_seq Datatypes.app] in *.
    - injection E1 as <- <-. rewrite E2. cbn. eauto.
    - destruct (hpack_decode T t b0) as [[[hs0|er0] t']| | |]; cbn [obind] in *; try discriminate.
      destruct (decode_seq T t' bs) as [[[hss0|er0] t'']| | |] eqn:E; cbn [obind] in *; try discriminate.
      injection E1 as <- <-. destruct (IH _ _ _ _ _ _ E E2) as (er' & t3 & ->). cbn. eauto.
  Qed.
  Lemma is_tree_complete blocks hss l m : Forall all_bytes blocks ->
    rfc_blocks server_profile ([], 65536) blocks hss (l, m) ->
    exists t, decode_seq T table0 blocks = Ret (Val hss, t) /\ dt_table t = l /\ dt_max t = m.
  Proof. destruct HT as [H]. now apply connection_complete. Qed.
  Lemma is_tree_sound blocks hss t : Forall all_bytes blocks -> decode_seq T table0 blocks = Ret (Val hss, t) ->
    rfc_blocks server_profile ([], 65536) blocks hss (dt_table t, dt_max t).
  Proof. destruct HT as [H]. now apply connection_sound. Qed.

  Hypothesis Happ : answers_ok cs app.
  Lemma status_ok rq w w' r : app rq w = (w', Answers r) -> 0 <= rs_status r.
  Proof. intros E. now destruct (Happ _ _ _ _ E) as [[H _] _]. Qed.

  Lemma after_conversation r tr : all_bytes (received tr) -> after_preface r tr ->
    exists ins txs outs byes escaped rest,
      conversation others app w0 tr ins txs outs byes escaped rest /\
      (byes = [] \/ exists g, byes = [g] /\ goaway_frame g) /\
      (escaped = [] \/ exists rq, escaped = [(rq, None)]) /\
      (r <> Some DiscardConnection -> byes = [] /\ escaped = []) /\
      (r = Some WantRead -> partial_frame rest) /\ r <> None /\
      (r = Some DiscardConnection -> fault_free tr -> ended_by txs byes escaped rest).
  Proof.
    intros Hb (os & fs & d & e & w & ev & rest & last & Hr & Hran & Ha & Hl & Hi & Hn & Hf).
    pose proof (ran_table _ _ _ _ _ _ Hran) as Hd.
    destruct (ran_answered W app cs T others w0 status_ok _ _ _ _ _ _ Hran)
      as (txs & outs & Hch & Hans & Hq & Hreq & Hlog & Hdec & Henc & Hbl & Hfok & Hh).
    assert (Hthrown : forall l, thrown d e w rest l -> exists rq w' f o r, l = [EvRequest rq None] /\
              app rq w = (w', Escapes) /\ rest = o ++ r /\ frame_octets (wf f) o /\ f_type f = 1).
    { intros l (o & f & r0 & d' & e' & w' & -> & Hc & Ep).
      destruct (throws_escape f d e w d' e' w' l Hd (chunk_bytes o f Hc) Ep) as (rq & -> & Eapp & Et).
      exists rq, w', f, o, r0. repeat split; auto. now apply chunk_frame_octets. }
    set (byes := match last with [EvQueue _] => [WFrame 7 0 0 [0; 0; 0; 1; 0; 0; 0; 1]] | _ => [] end).
    set (esc := requests last).
    assert (Hlast : last = [] \/ last = [bye] \/ exists rq w' , last = [EvRequest rq None] /\ app rq w = (w', Escapes)).
    { destruct Hl as [->|(_ & [->|Hl])]; auto. destruct (Hthrown _ Hl) as (rq & w' & _ & _ & _ & -> & Eapp & _).
      right; right. eauto. }
    exists (map wf fs), txs, outs, byes, esc, rest. split; [|split; [|split; [|split; [|split; [|split]]]]].
    - split.
      + exists (concat os). split; [now apply chunks_frames|]. rewrite Hr, preface_eq. reflexivity.
      + clear -Hch. induction Hch as [|o f os fs Hc _ IH]; constructor; auto. eapply chunk_small; eauto.
      + exact Hans.
      + intros Hs. rewrite <- queued_acts, Ha.
        change (EvQueue write_settings :: ev ++ last) with ([EvQueue write_settings] ++ ev ++ last).
        rewrite !queued_app. cbn [queued flat_map]. rewrite app_nil_r. apply frames_octets_cons; [apply settings_frame|].
        apply frames_octets_app; [now apply Hq|]. subst byes.
        destruct Hlast as [->|[->|(rq & w' & -> & _)]].
        * apply frames_octets_nil.
        * cbn [queued flat_map bye]. rewrite app_nil_r. apply frames_octets_one.
          apply (serialized_frame 7 0 0 [0; 0; 0; 1; 0; 0; 0; 1]); easy.
        * apply frames_octets_nil.
      + rewrite <- requests_acts, Ha.
        change (EvQueue write_settings :: ev ++ last) with ([EvQueue write_settings] ++ ev ++ last).
        rewrite !requests_app, Hreq. reflexivity.
      + rewrite <- logged_acts, Ha.
        change (EvQueue write_settings :: ev ++ last) with ([EvQueue write_settings] ++ ev ++ last).
        rewrite !logged_app, Hlog. cbn [logged flat_map Datatypes.app].
        destruct Hlast as [->|[->|(rq & w' & -> & _)]]; cbn; now rewrite app_nil_r.
      + eexists. apply is_tree_sound; eauto.
      + intros Hre. destruct (responses_survive cs _ (Hfok Happ) Hre) as (bs & t & Eb & Hb'). rewrite Henc in Eb.
        injection Eb as <- _. eauto.
      + intros D HD H1 Hnd Hsz Hin. destruct (few_fields_default cs D _ HD H1 Hnd Hsz (Hfok Happ)) as (bs & t & Eb & Hb').
        { clear -Hin. induction Hin as [|tx txs Hi _ IH]; constructor; auto. apply Forall_forall. exact Hi. }
        rewrite Henc in Eb. injection Eb as <- _. eauto.
      + intros m Hm Hre. destruct (smaller_client cs m _ Hm (Hfok Happ) Hre) as (bs & t & Eb & K1 & K2). rewrite Henc in Eb. injection Eb as <- _.
        split; [|exact K2]. intros K limit. eexists. exact (K1 K limit).
      + intros dn before h after later El Hre Hlo m limit hss st Hm HR. pose proof Henc as Henc'. pose proof (Hfok Happ) as Hk. rewrite El in Henc', Hk.
        exact (lost_response cs m _ _ _ _ _ _ _ _ _ _ Hm Hk Hre Hlo Henc' HR).
      + pose proof (encode_seq_size cs _ _ _ _ (Hfok Happ) Henc) as Hz. clear -Hz. induction txs as [|tx txs IH]; [constructor|].
        cbn [map] in Hz. inversion Hz; subst. constructor; auto.
      + rewrite <- requests_acts, Ha.
        change (EvQueue write_settings :: ev ++ last) with ([EvQueue write_settings] ++ ev ++ last).
        rewrite !requests_app. cbn [requests flat_map Datatypes.app].
        destruct Hlast as [->|[->|(rq & w' & -> & Eapp)]].
        * exists w. cbn. rewrite app_nil_r. exact Hh.
        * exists w. cbn. rewrite app_nil_r. exact Hh.
        * exists w'. cbn. eapply handled_escapes; eauto.
    - subst byes. destruct Hlast as [->|[->|(rq & w' & -> & Eapp)]]; auto. right. eexists. split; [reflexivity|now split].
    - subst esc. destruct Hlast as [->|[->|(rq & w' & -> & Eapp)]]; auto. right. eexists; reflexivity.
    - intros Hne. subst byes esc. destruct Hl as [->|(? & _)]; [auto|congruence].
    - intros E. now apply incomplete_partial, Hi.
    - exact Hn.
    - intros E Hff. destruct (Hf E Hff) as [(s & He & El)|Ht].
      + assert (Hbr : all_bytes rest).
        { rewrite Hr in Hb. apply all_bytes_app in Hb as [_ Hb]. now apply all_bytes_app in Hb as [_ Hb]. }
        subst byes esc. destruct He as [o f r0 s d' e' w' ev' Hc Ep|r0 Ho].
        * right; left. apply process_frame_inv in Ep.
          assert (Hsm := chunk_small o f Hc). assert (Hfo := chunk_frame_octets o f Hc).
          assert (G : forall s0, s = s0 -> s0 = StProtocolError -> f_type f <> 7 -> refused txs (wf f) ->
                     requests last = [] /\ exists f o1 r, o ++ r0 = o1 ++ r /\ frame_octets f o1 /\
                       lenZ (w_payload f) <= 16384 /\ refused txs f /\
                       (match last with [EvQueue _] => [WFrame 7 0 0 [0; 0; 0; 1; 0; 0; 0; 1]] | _ => [] end = [] <-> w_type f = 7)).
          { intros s0 -> -> H7 Hrf. subst last. split; [reflexivity|]. exists (wf f), o, r0.
            do 4 (split; [auto|]). split; [intros; discriminate|intros; now contradiction H7]. }
          destruct Ep as [H|[H|[H|[H|[H|[H|H]]]]]]; try (decompose [and] H; congruence).
          -- destruct H as (Et & Ef & Es & _ & _ & _ & _ & Hm). injection Es as Es. apply (G s); auto; [lia|].
             apply refused_settings; auto. change (has_flag f 1) with (has_flag f (2 ^ 0)) in Ef.
             rewrite (has_flag_bit f 0) in Ef by lia. exact Ef.
          -- destruct H as (Et & Es & _). injection Es as ->. subst last. split; [reflexivity|].
             exists (wf f), o, r0. do 3 (split; [auto|]). split; [now apply refused_goaway|]. split; auto.
          -- destruct H as (Et & b & Eb & [(_ & ? & _)|[(er & Ed & Es & _)|(hs & resp & evr & _ & _ & H)]]).
             ++ congruence.
             ++ injection Es as Es. apply (G s); auto; [lia|].
                apply (refused_headers _ _ b); auto; [now apply headers_block_payload|].
                intros hss [l m] Hrf. 
                destruct (decode_seq_snoc_error _ _ _ _ _ _ _ Hdec Ed) as (er' & t3 & Ed').
                apply is_tree_complete in Hrf as (t & Ec & _); [congruence|].
                apply Forall_app. split; auto. constructor; [|constructor].
                apply (headers_block_bytes f b); auto. now apply chunk_bytes with o.
             ++ destruct H as [H|(rs & _ & [H|(b' & dt & H)])]; decompose [and] H; congruence.
        * left. subst last. split; [reflexivity|]. split; [discriminate|]. now apply announces_oversized.
      + right; right. destruct (Hthrown _ Ht) as (rq & w' & f & o & r0 & -> & _ & -> & Hfo & Et).
        split; [reflexivity|]. exists rq, (wf f), o, r0. repeat split; auto.
  Qed.
End Main.
