(** Which of RFC 9113's rules for clients the server looks at. *)
From Verif Require Import Base BaseLemmas SpecFrames SpecHpack HpackLemmas SpecHpackEnc Huffman DynTable HpackDec HpackDecProofs HpackEnc HpackEncProofs
  Frames FramesProofs Http Conn SpecConn SpecFlow SpecRules ConnLemmas ConnRule ConnBasic ConnTerm ConnRun ConnSpec ConnMain ConnDet ConnMore ConnUndef ConnLast ConnFlow.

(** ** Frames that are connection errors *)
Lemma corrected_alike before f after : w_type f <> 1 -> w_type f <> 7 ->
  (w_type f = 4 -> Z.testbit (w_flags f) 0 = false -> lenZ (w_payload f) mod 6 = 0) ->
  (w_type f = 8 -> 4 <= lenZ (w_payload f)) ->
  all_alike (before ++ f :: after) (before ++ corrected f ++ after).
Proof.
  intros H1 H7 H4 H8. apply all_alike_app; [apply all_alike_refl|]. destruct f as [t fl s p]. cbn [w_type w_flags w_payload] in *.
  unfold corrected. cbn [w_type w_flags]. destruct (Z.eqb_spec t 4) as [->|N4].
  - cbn [Datatypes.app]. apply all_alike_cons; [|apply all_alike_refl]. destruct (Z.testbit fl 0) eqn:E; (apply alike_settings; [exact E|]).
    + intros E'. congruence.
    + specialize (H4 eq_refl eq_refl). intros _. split; intros _; [reflexivity|exact H4].
  - cbn [Datatypes.app]. apply all_alike_left; [|apply all_alike_refl]. unfold says_nothing, implemented. cbn [w_type w_payload].
    destruct (Z.eqb_spec t 8) as [->|N8]; [right; auto|]. left.
    destruct (Z.eqb_spec t 1); [easy|]. destruct (Z.eqb_spec t 4); [easy|]. destruct (Z.eqb_spec t 7); [easy|]. reflexivity.
Qed.

(** ** Stream identifiers *)
Section Streams.
  Variable W : Type.
  Variable app : request -> W -> W * app_answer.
  Variable cs : bool.
  Variable T : tree.
  Variable rho : Z -> Z.
  Hypothesis Hrho : forall s, 0 <= s < 2 ^ 31 -> 0 <= rho s < 2 ^ 31.
  Notation process_frame := (process_frame W app cs T).
  Notation fate := (fate W app cs T).
  Notation final := (final W app cs T).
  Notation same := (restreamed rho).

  Lemma same_frame f o o' : frame_octets f o -> frame_octets (restream rho f) o' -> same (EvQueue o) (EvQueue o').
  Proof. intros H H'. left. exists [f]. split; [now apply frames_octets_one|]. cbn [map]. now apply frames_octets_one. Qed.

  Lemma data_same fuel s : 0 <= s < 2 ^ 31 -> forall body o, write_data_response fuel s body = Ret o ->
    exists o' fs, write_data_response fuel (rho s) body = Ret o' /\ frames_octets fs o /\ frames_octets (map (restream rho) fs) o'.
  Proof.
    intros Hs. induction fuel as [|n IH]; intros body o E; (destruct body as [|b body];
      [cbn in E; injection E as <-; exists [], []; repeat split; exists []; split; constructor|]); [discriminate E|].
    cbn [write_data_response] in *. unfold MAX_FRAME_SIZE, FRAME_TYPE_DATA, FLAG_END_STREAM in *.
    set (l := b :: body) in *. set (k := Z.min (lenZ l) (16384 - 128)) in *.
    assert (Hl : 1 <= lenZ l) by (unfold l; rewrite lenZ_cons; pose proof (lenZ_nonneg body); lia).
    assert (Hk : 1 <= k <= 16256 /\ k <= lenZ l) by (unfold k; lia).
    assert (Hlen : lenZ (firstn (Z.to_nat k) l) = k) by (unfold lenZ in *; rewrite firstn_length; lia).
    destruct (write_data_response n s (skipn (Z.to_nat k) l)) as [more| | |] eqn:Em; cbn [obind] in E; [|discriminate E..].
    apply ret_inj in E. subst o. destruct (IH _ _ Em) as (o' & fs & -> & H1 & H2). cbn [obind].
    eexists. exists (WFrame 0 (if lenZ l - k =? 0 then 1 else 0) s (firstn (Z.to_nat k) l) :: fs). split; [reflexivity|].
    rewrite !app_assoc. clearbody l k. cbn [map]. assert (Hf : is_byte (if lenZ l - k =? 0 then 1 else 0)) by (unfold is_byte; destruct (_ =? _); lia).
    split; (apply frames_octets_cons; [|assumption]).
    - pose proof (serialized_frame 0 _ s (firstn (Z.to_nat k) l) ltac:(unfold is_byte; lia) Hf Hs) as H. rewrite Hlen in H.
      apply H. change (2 ^ 24) with 16777216. lia.
    - pose proof (serialized_frame 0 _ (rho s) (firstn (Z.to_nat k) l) ltac:(unfold is_byte; lia) Hf (Hrho s Hs)) as H. rewrite Hlen in H.
      apply H. change (2 ^ 24) with 16777216. lia.
  Qed.

  Lemma fh_len h : lenZ (fh_serialize h) = 9.
  Proof. reflexivity. Qed.

  Lemma headers_same s block fl : 0 <= s < 2 ^ 31 -> is_byte fl ->
    same (EvQueue (write_headers_response s block fl)) (EvQueue (write_headers_response (rho s) block fl)).
  Proof.
    intros Hs Hf. unfold write_headers_response, FRAME_TYPE_HEADERS. destruct (Z_lt_dec (lenZ block) (2 ^ 24)) as [L|L].
    - apply (same_frame (WFrame 1 fl s block)); [|cbn [restream w_type Z.eqb Pos.eqb orb w_flags w_stream w_payload]];
        (apply serialized_frame; [unfold is_byte; lia|exact Hf|auto|exact L]).
    - right. rewrite !lenZ_app, !fh_len. split; [lia|]. split; reflexivity.
  Qed.
  Lemma same_refl e : (forall o, e <> EvQueue o) -> same e e.
  Proof. intros H. destruct e; try reflexivity. now destruct (H o). Qed.

  Lemma restream_process o f o' f' d e w fe d1 e1 w1 ev : chunk o f -> chunk o' f' -> wf f' = restream rho (wf f) ->
    process_frame f d e w = Ret (fe, d1, e1, w1, ev) ->
    exists ev', process_frame f' d e w = Ret (fe, d1, e1, w1, ev') /\ Forall2 same ev ev'.
  Proof.
    intros Hc Hc' E Hp. pose proof (chunk_header _ _ Hc) as Hh.
    destruct (Z.eqb_spec (f_type f) 1) as [E1|N1].
    - assert (Hs : 0 <= f_stream f < 2 ^ 31) by (destruct Hh as (l & s & r & Hh); apply Hh).
      unfold restream in E. cbn [wf w_type w_flags w_stream w_payload] in E. rewrite E1 in E. cbn [Z.eqb Pos.eqb orb] in E.
      injection E as E1' E2 E3 E4.
      unfold Conn.process_frame, FRAME_TYPE_SETTINGS, FRAME_TYPE_HEADERS in *. rewrite E1 in Hp. rewrite E1'. cbn [Z.eqb Pos.eqb] in *.
      unfold headers_block, has_flag in *. rewrite E2, E3, E4. clear E1 E1' E2 E3 E4 Hh Hc Hc'.
      match type of Hp with context [obind ?x _] => destruct x as [block| | |] end; cbn [obind] in *; [|discriminate Hp..].
      destruct (hpack_decode T d block) as [[[hdrs|x] d']| | |]; [|injection Hp as <- <- <- <- <-; eexists; split; [reflexivity|constructor]|
        injection Hp as <- <- <- <- <-; eexists; split; [reflexivity|constructor]|discriminate Hp..].
      destruct (process_request W app hdrs w) as [[w' [rs|]] ev0] eqn:Er.
      + assert (Hq : Forall2 same ev0 ev0).
        { apply process_request_inv in Er as [(_ & _ & _ & ->)|(p & m & a & _ & _ & _ & [(_ & _ & ->)|(r & _ & _ & ->)])];
            repeat constructor. }
        destruct (hpack_encode cs e (rs_headers rs)) as [[b' e']| | |]; [|injection Hp as <- <- <- <- <-; eauto|discriminate Hp..].
        destruct (write_data_response (length (rs_body rs)) (f_stream f) (rs_body rs)) as [data| | |] eqn:Ed; cbn [obind] in Hp; [|discriminate Hp..].
        injection Hp as <- <- <- <- <-. destruct (data_same _ _ Hs _ _ Ed) as (data' & fs & -> & F1 & F2). cbn [obind]. eexists. split; [reflexivity|].
        apply Forall2_app; [exact Hq|]. constructor; [|constructor; [|constructor; [reflexivity|constructor]]].
        * apply headers_same; [exact Hs|]. destruct (rs_body rs); split; [discriminate|reflexivity|discriminate|reflexivity].
        * left. eauto.
      + injection Hp as <- <- <- <- <-. eexists. split; [reflexivity|].
        apply process_request_inv in Er as [(_ & _ & _ & ->)|(p & m & a & _ & _ & _ & [(_ & _ & ->)|(r & _ & _ & ->)])]; repeat constructor.
    - destruct (Z.eqb_spec (f_type f) 0) as [E0|N0].
      + assert (f_type f' = 0) as E0'.
        { unfold restream in E. cbn [wf w_type w_flags w_stream w_payload] in E. rewrite E0 in E. cbn [Z.eqb Pos.eqb orb] in E. now injection E as ?. }
        assert (I : ignorable f = true) by (unfold ignorable; rewrite E0; reflexivity).
        assert (I' : ignorable f' = true) by (unfold ignorable; rewrite E0'; reflexivity).
        rewrite (ignorable_done W app cs T f d e w I) in Hp. injection Hp as <- <- <- <- <-.
        exists []. split; [exact (ignorable_done W app cs T f' d e w I')|constructor].
      + unfold restream in E. cbn [wf w_type] in E. destruct (Z.eqb_spec (f_type f) 1); [easy|]. destruct (Z.eqb_spec (f_type f) 0); [easy|]. cbn [orb] in E.
        pose proof (chunk_wf_inj _ _ _ _ Hc' Hc E) as ->. exists ev. split; [exact Hp|].
        unfold Conn.process_frame, FRAME_TYPE_SETTINGS, FRAME_TYPE_HEADERS, FRAME_TYPE_WINDOW_UPDATE, FRAME_TYPE_GOAWAY in Hp.
        destruct (Z.eqb_spec (f_type f) 4).
        * destruct (has_flag f 1); [injection Hp as <- <- <- <- <-; constructor|].
          destruct (read_settings f) as [[?|?]| | |]; cbn [obind] in Hp; [| |discriminate Hp..]; injection Hp as <- <- <- <- <-; [|constructor].
          constructor; [|constructor]. apply (same_frame (WFrame 4 1 0 [])); exact ack_frame.
        * destruct (Z.eqb_spec (f_type f) 1); [easy|].
          destruct (f_type f =? 8); [destruct (read_window_update f); cbn [obind] in Hp; [|discriminate Hp..]|destruct (f_type f =? 7)];
            injection Hp as <- <- <- <- <-; constructor.
  Qed.

  Lemma same_bye : same bye bye.
  Proof. destruct bye_frame as (p & H). unfold bye. apply (same_frame (WFrame 7 0 0 p)); exact H. Qed.

  Lemma final_restream os fs : Forall2 chunk os fs -> forall os' fs', Forall2 chunk os' fs' -> map wf fs' = map (restream rho) (map wf fs) ->
    forall d e w rest x, final d e w (concat os ++ rest) x ->
    (forall d1 e1 w1 y, final d1 e1 w1 rest y -> Forall2 same y y) ->
    exists x', final d e w (concat os' ++ rest) x' /\ Forall2 same x x'.
  Proof.
    induction 1 as [|o f os fs Hc _ IH]; intros os' fs' H' E d e w rest x HF HR.
    - cbn [map] in E. apply map_eq_nil in E. subst. inversion H'; subst. exists x. eauto.
    - destruct H' as [|o' f' os' fs' Hc' H']; [discriminate E|]. cbn [map] in E.
      assert (E1 : wf f' = restream rho (wf f)) by congruence. assert (E2 : map wf fs' = map (restream rho) (map wf fs)) by congruence.
      cbn [concat] in *. rewrite <- app_assoc in *.
      inversion HF as [? ? ? ? ? Hf|? ? ? o1 f1 d1 e1 w1 ev1 x1 l1 Hc1 Hp1 H1]; subst.
      + destruct Hf as [Hi|Ho|o1 f1 r1 s d1 e1 w1 ev1 Ex Hc1 Hp1|o1 f1 r1 d1 e1 w1 l1 Ex Hc1 Hp1].
        * now apply (chunk_not_incomplete _ _ _ Hc) in Hi.
        * now apply (chunk_not_oversized _ _ _ Hc) in Ho.
        * destruct (chunk_inj _ _ _ _ _ _ Hc Hc1 Ex) as (-> & -> & _).
          destruct (restream_process _ _ _ _ _ _ _ _ _ _ _ _ Hc1 Hc' E1 Hp1) as (ev' & Hp' & _).
          eexists. split; [apply final_stop; eapply fate_state; eauto|]. destruct s; first [constructor; fail|constructor; [apply same_bye|constructor]].
        * destruct (chunk_inj _ _ _ _ _ _ Hc Hc1 Ex) as (-> & -> & _).
          destruct (restream_process _ _ _ _ _ _ _ _ _ _ _ _ Hc1 Hc' E1 Hp1) as (ev' & Hp' & Hs).
          exists ev'. split; [apply final_stop; eapply fate_throw; eauto|exact Hs].
      + match goal with E : _ ++ _ = _ ++ _ |- _ => destruct (chunk_inj _ _ _ _ _ _ Hc1 Hc E) as (-> & -> & ->) end.
        destruct (restream_process _ _ _ _ _ _ _ _ _ _ _ _ Hc Hc' E1 Hp1) as (ev' & Hp' & Hs).
        destruct (IH _ _ H' E2 _ _ _ _ _ H1 HR) as (x' & H2 & Hx). exists (ev' ++ x'). split; [eapply final_step; eauto|]. now apply Forall2_app.
  Qed.
End Streams.

Definition carried (f : wframe) : Prop := all_bytes (w_payload f) /\ lenZ (w_payload f) <= 16384.
Lemma carried_chunks l b : Forall carried l -> frames_octets l b -> exists os fs, Forall2 chunk os fs /\ b = concat os /\ map wf fs = l.
Proof.
  intros Hl Hb.
  assert (Hp : Forall (fun f => all_bytes (w_payload f)) l) by (eapply Forall_impl; [|exact Hl]; unfold carried; tauto).
  assert (Hs : Forall (fun f => lenZ (w_payload f) <= 16384) l) by (eapply Forall_impl; [|exact Hl]; unfold carried; tauto).
  exact (frames_chunks _ _ Hb (frames_bytes _ _ Hb Hp) Hs).
Qed.
Lemma carried_restream rho l : Forall carried l -> Forall carried (map (restream rho) l).
Proof.
  induction 1 as [|f l H _ IH]; cbn [map]; constructor; [|exact IH]. unfold restream. destruct (_ || _); exact H.
Qed.

Lemma restreamed_same rho l l' : Forall2 (restreamed rho) l l' -> requests l = requests l' /\ logged l = logged l'.
Proof.
  induction 1 as [|e e' l l' H _ (IH1 & IH2)]; [easy|]. destruct e, e'; cbn [restreamed] in H; try discriminate H; unfold requests, logged in *; cbn [flat_map]; split; congruence.
Qed.

Lemma streams_ignored W app cs T w0 A1 A2 t1 t2 rho ins o o' r1 c1 tr1 w1 r2 c2 tr2 w2 :
  (forall s, 0 <= s < 2 ^ 31 -> 0 <= rho s < 2 ^ 31) -> Forall carried ins ->
  frames_octets ins o -> frames_octets (map (restream rho) ins) o' ->
  session W app cs T eq t1 w0 A1 r1 c1 tr1 w1 -> session W app cs T eq t2 w0 A2 r2 c2 tr2 w2 ->
  done_with (rfc_preface ++ o) r1 tr1 -> done_with (rfc_preface ++ o') r2 tr2 ->
  Forall2 (restreamed rho) (visible tr1) (visible tr2) /\ requests tr1 = requests tr2 /\ logged tr1 = logged tr2.
Proof.
  intros Hrho Hi Ho Ho' H1 H2 D1 D2. rewrite <- preface_eq in *.
  eapply session_outcome in H1; [|exact D1]. eapply session_outcome in H2; [|exact D2].
  assert (G : Forall2 (restreamed rho) (visible tr1) (visible tr2)).
  { destruct H1 as [(_ & H)|(x1 & l1 & E1 & V1 & F1)]; [now apply preface_len in H|].
    apply app_inv_head in E1. subst x1.
    destruct (carried_chunks _ _ Hi Ho) as (os & fs & Hc & -> & E).
    destruct (carried_chunks _ _ (carried_restream rho _ Hi) Ho') as (os' & fs' & Hc' & -> & E').
    rewrite <- (app_nil_r (concat os)) in F1. rewrite <- E in E'.
    destruct (final_restream W app cs T rho Hrho _ _ Hc _ _ Hc' E' _ _ _ _ _ F1) as (x' & F2 & Hs).
    { intros d1 e1 w y Hf. inversion Hf as [? ? ? ? ? Hf'|? ? ? o1 f1 d2 e2 w2' ev2 x2 l2 Hc1 Hp1 H]; subst.
      - destruct Hf' as [Hx|Hx|o1 f1 r s d2 e2 w2' ev2 Ex Hc1 Hp1|o1 f1 r d2 e2 w2' l2 Ex Hc1 Hp1]; [constructor|destruct Hx as [Hx _]; unfold lenZ in Hx; cbn in Hx; lia|..];
          symmetry in Ex; apply app_eq_nil in Ex as [-> _]; destruct Hc1 as [Hc1 _]; unfold lenZ in Hc1; cbn in Hc1; lia.
      - match goal with Ex : _ ++ _ = [] |- _ => apply app_eq_nil in Ex as [-> _] end. destruct Hc1 as [Hc1 _]; unfold lenZ in Hc1; cbn in Hc1; lia. }
    rewrite app_nil_r in F2. rewrite (visible_acts tr1), (visible_acts tr2), V1.
    destruct H2 as [(_ & H)|(x2 & l2 & E2 & V2 & F3)]; [now apply preface_len in H|]. apply app_inv_head in E2. subst x2.
    rewrite V2, <- (final_det _ _ _ _ _ _ _ _ _ F2 _ F3). constructor; [|exact Hs].
    apply (same_frame rho server_settings); exact settings_frame. }
  split; [exact G|]. apply restreamed_same in G as (G1 & G2). rewrite (visible_acts tr1), (visible_acts tr2) in *.
  rewrite !requests_acts in G1. rewrite !logged_acts in G2. auto.
Qed.

(** ** Requests *)
Lemma answered_blocks ins txs outs : answered ins txs outs -> blocks_of ins (map tx_block txs).
Proof.
  unfold blocks_of. induction 1; rewrite ?filter_app, ?map_app; cbn [filter w_type Z.eqb Pos.eqb]; rewrite ?app_nil_r; auto.
  - constructor.
  - apply Forall2_app; [exact IHanswered|]. cbn [map]. constructor; [|constructor]. exact H0.
  - destruct (Z.eqb_spec (w_type f) 1); [easy|]. now rewrite app_nil_r.
Qed.
Lemma blocks_of_det ins bs bs' : blocks_of ins bs -> blocks_of ins bs' -> bs = bs'.
Proof.
  unfold blocks_of. intros H. revert bs'. induction H as [|f b fs bs Hb _ IH]; intros bs' H'; inversion H' as [|? b' ? bs2 Hb' H2]; subst; [reflexivity|].
  f_equal; [exact (headers_payload_fun _ _ _ _ Hb Hb')|auto].
Qed.
Lemma answered_each ins txs outs : answered ins txs outs -> Forall (fun tx => served (tx_fields tx) (tx_app tx) (tx_sent tx)) txs.
Proof. induction 1; auto. apply Forall_app. auto. Qed.
Lemma served_asked txs : Forall (fun tx => served (tx_fields tx) (tx_app tx) (tx_sent tx)) txs ->
  asked (map tx_fields txs) (map fst (concat (map tx_app txs))).
Proof.
  induction 1 as [|tx txs H _ IH]; cbn [map concat]; [constructor|]. rewrite map_app.
  destruct H as [Hn|m p r fields Hm Hp _]; [now apply asked_not|now apply asked_more].
Qed.

Lemma blocks_length P st bs hss st' : rfc_blocks P st bs hss st' -> length bs = length hss.
Proof. induction 1; cbn [length]; congruence. Qed.
Lemma frame_length f o : frame_octets f o -> lenZ o = 9 + lenZ (w_payload f).
Proof.
  intros (h & -> & l & s & r & -> & _ & L1 & _ & L2 & _). rewrite !lenZ_app, L1, L2. change (lenZ [w_type f; w_flags f]) with 2. lia.
Qed.
Lemma frames_length fs os os' : Forall2 frame_octets fs os -> Forall2 frame_octets fs os' -> lenZ (concat os) = lenZ (concat os').
Proof.
  intros H. revert os'. induction H as [|f o fs os Hf _ IH]; intros os' H'; inversion H' as [|? o' ? os2 Hf' H2]; subst; [reflexivity|].
  cbn [concat]. rewrite !lenZ_app, (frame_length _ _ Hf), (frame_length _ _ Hf'), (IH _ H2). reflexivity.
Qed.

Lemma requests_asked W app cs T others t0 w0 A c tr w ins o x bs hss st :
  is_tree T -> answers_ok cs app -> session W app cs T others t0 w0 A (Some WantRead) c tr w ->
  received tr = rfc_preface ++ o ++ x -> frames_octets ins o -> Forall (fun f => lenZ (w_payload f) <= 16384) ins ->
  blocks_of ins bs -> rfc_blocks server_profile ([], 65536) bs hss st ->
  exists rqs later, asked hss rqs /\ map fst (requests tr) = rqs ++ later /\ (x = [] -> later = []).
Proof.
  intros HT Happ H Hr Ho Hs Hb Hd.
  destruct (all_handled W app cs T others t0 w0 HT Happ A c tr w ins o x H Hr Ho Hs) as (more & txs & outs & rest & Hc & _).
  pose proof (answered_blocks _ _ _ (conv_answered _ _ _ _ _ _ _ _ _ _ Hc)) as Hb'. unfold blocks_of in Hb'. rewrite filter_app in Hb'.
  apply Forall2_app_inv_l in Hb' as (b1 & b2 & H1 & H2 & E).
  pose proof (blocks_of_det _ _ _ H1 Hb) as ->. apply map_eq_app in E as (t1 & t2 & -> & <- & <-).
  destruct (conv_decoded _ _ _ _ _ _ _ _ _ _ Hc) as (st' & Hd'). rewrite !map_app in Hd'.
  pose proof (answered_each _ _ _ (conv_answered _ _ _ _ _ _ _ _ _ _ Hc)) as Hsv. apply Forall_app in Hsv as [Hsv _].
  exists (map fst (concat (map tx_app t1))), (map fst (concat (map tx_app t2))). split; [|split].
  - assert (hss = map tx_fields t1) as ->; [|now apply served_asked].
    apply blocks_app_inv in Hd' as (h1 & h2 & stm & E & D1 & _).
    destruct (blocks_det _ server_profile_functional _ _ _ _ Hd _ _ D1) as [-> _].
    pose proof (blocks_length _ _ _ _ _ D1) as L. rewrite !map_length in L. apply app_inj_len in E as [E _]; [now symmetry|]. now rewrite map_length.
  - rewrite (conv_requests _ _ _ _ _ _ _ _ _ _ Hc), app_nil_r, map_app, concat_app, map_app. reflexivity.
  - intros ->. destruct (conv_received _ _ _ _ _ _ _ _ _ _ Hc) as (o1 & (os & Hos & ->) & Hr1). rewrite Hr in Hr1. apply app_inv_head in Hr1.
    apply Forall2_app_inv_l in Hos as (os1 & os2 & F1 & F2 & ->). destruct Ho as (os0 & F0 & ->).
    rewrite app_nil_r, concat_app in Hr1. pose proof (f_equal lenZ Hr1) as L. rewrite !lenZ_app, (frames_length _ _ _ F0 F1) in L.
    destruct F2 as [|f fo more os2 Hf _].
    + cbn [filter] in H2. destruct t2 as [|tx t2]; [reflexivity|]. inversion H2.
    + exfalso. cbn [concat] in L. rewrite lenZ_app, (frame_length _ _ Hf) in L.
      pose proof (lenZ_nonneg (w_payload f)). pose proof (lenZ_nonneg (concat os2)). pose proof (lenZ_nonneg rest). lia.
Qed.

(** ** Uploads *)
Lemma response_types s block body fs : response_frames s block body fs -> Forall (fun f => In (w_type f) [0; 1]) fs.
Proof.
  assert (D : forall b l, data_frames s b l -> Forall (fun f => In (w_type f) [0; 1]) l).
  { induction 1; constructor; cbn; auto. }
  destruct 1; constructor; cbn; eauto.
Qed.
Lemma answered_types ins txs outs : answered ins txs outs -> Forall (fun f => In (w_type f) [0; 1] \/ f = WFrame 4 1 0 []) outs.
Proof.
  induction 1; auto; apply Forall_app; (split; [assumption|]).
  - constructor; [now right|constructor].
  - eapply Forall_impl; [|exact (response_types _ _ _ _ H2)]. cbn. auto.
Qed.
Lemma no_increments s fs : Forall (fun f => w_type f <> 8) fs -> increments s fs = 0.
Proof.
  unfold increments. induction 1 as [|f fs H _ IH]; [reflexivity|]. cbn [filter]. destruct (w_stream f =? s); [|exact IH].
  cbn [map total fold_right]. unfold increment at 1. destruct (Z.eqb_spec (w_type f) 8); [easy|]. exact IH.
Qed.
(** The frames the server sends: its SETTINGS frame, and no other frame that changes windows. *)
Definition creditless (f : wframe) : Prop := w_type f <> 8 /\ initial_sizes f = [].
Lemma creditless_size fs : Forall creditless fs -> initial_size fs = 65535.
Proof.
  intros H. assert (E : flat_map initial_sizes fs = []) by (induction H as [|f fs [_ E] _ IH]; cbn [flat_map]; [|rewrite E]; auto).
  unfold initial_size. now rewrite E.
Qed.
Lemma settings_size fs : Forall creditless fs -> initial_size (server_settings :: fs) = 65535.
Proof.
  intros H. assert (E : flat_map initial_sizes fs = []) by (induction H as [|f fs [_ E] _ IH]; cbn [flat_map]; [|rewrite E]; auto).
  unfold initial_size. cbn [flat_map]. rewrite E. reflexivity.
Qed.
Lemma server_frames ins txs outs byes : answered ins txs outs -> (byes = [] \/ exists g, byes = [g] /\ goaway_frame g) -> Forall creditless (outs ++ byes).
Proof.
  intros H Hb. apply Forall_app. split.
  - eapply Forall_impl; [|exact (answered_types _ _ _ H)]. intros f [[E|[E|[]]]| ->]; (split; [try rewrite <- E; easy|]); unfold initial_sizes; try rewrite <- E; reflexivity.
  - destruct Hb as [->|(g & -> & E & _)]; constructor; [|constructor]. split; [rewrite E; easy|]. unfold initial_sizes. now rewrite E.
Qed.

Lemma data_on_le s fs : data_on s fs <= data_all fs.
Proof.
  unfold data_on, data_all. induction fs as [|f fs IH]; [cbn; lia|]. cbn [filter]. assert (0 <= data_of f) by (unfold data_of; destruct (_ =? _); [apply lenZ_nonneg|lia]).
  destruct (w_stream f =? s); cbn [map total fold_right] in *; unfold total in *; lia.
Qed.
Lemma uploads h fs : by_server h = server_settings :: fs -> Forall creditless fs ->
  client_heeds h <-> data_all (by_client h) <= 65535.
Proof.
  intros Es Hf.
  assert (Hw : forall a b, h = a ++ b -> initial_size (by_server a) = 65535 /\ forall s, increments s (by_server a) = 0).
  { intros a b ->. rewrite by_server_app in Es. destruct (by_server a) as [|g l]; [split; reflexivity|].
    cbn [Datatypes.app] in Es. injection Es as -> <-. apply Forall_app in Hf as [Hf _]. split; [now apply settings_size|].
    intros s. apply no_increments. constructor; [discriminate|]. eapply Forall_impl; [|exact Hf]. now intros f []. }
  split.
  - intros H. assert (K : forall a b, h = a ++ b -> data_all (by_client a) <= 65535).
    { induction a as [|x a IH] using rev_ind; intros b E; [cbn; lia|]. rewrite <- app_assoc in E. cbn [Datatypes.app] in E.
      rewrite by_client_app, data_all_app. specialize (IH _ E). destruct x as [f|f]; [|cbn; lia].
      unfold by_client at 2, data_all at 2. cbn [flat_map map total fold_right Datatypes.app]. unfold data_of at 1.
      destruct (Z.eqb_spec (w_type f) 0) as [E0|N0]; [|lia]. destruct (H a f b E E0) as [_ K].
      unfold upload_connection_window in K. rewrite (proj2 (Hw _ _ E)) in K. lia. }
    apply (K h []). now rewrite app_nil_r.
  - intros H a f b E Hd. destruct (Hw _ _ E) as [W1 W2]. unfold upload_window, upload_connection_window. rewrite W1, !W2.
    rewrite E, by_client_app, data_all_app in H. cbn [by_client flat_map Datatypes.app] in H. change (f :: flat_map _ b) with ([f] ++ by_client b) in H.
    rewrite data_all_app in H. pose proof (data_all_nonneg (by_client b)). unfold data_all at 2 in H. cbn [map total fold_right] in H.
    unfold data_of at 1 in H. rewrite Hd in H. cbn [Z.eqb] in H. pose proof (data_on_le (w_stream f) (by_client a)). lia.
Qed.

(** ** Reading *)
Lemma available_app a b : available (a ++ b) = available a ++ available b.
Proof. apply flat_map_app. Qed.

Lemma fill_drained rd : forall c c' ev rd', fill_read_buffer rd c = (c', ev, rd') ->
  exists l, rd = l ++ rd' /\ available l = received ev /\
    (lenZ (c_rbuf c') < 49152 -> rd' = [] \/ exists l' t e, l = l' ++ [(t, RdErr e)]).
Proof.
  induction rd as [|[now [o|e]] rd IH]; intros c c' ev rd' E; cbn [fill_read_buffer] in E; unfold TEMP_READ_BUFFER_SIZE, MAX_READ_BUFFER_SIZE in *.
  - exists []. destruct (_ >=? _); injection E as _ <- <-; auto.
  - destruct (_ >=? _) eqn:Ef; [injection E as <- <- <-; exists []; repeat split; auto; lia|].
    destruct (fill_read_buffer rd _) as [[c2 ev2] rd2] eqn:E2. injection E as <- <- <-.
    destruct (IH _ _ _ _ E2) as (l & -> & A & K). exists ((now, RdData o) :: l). split; [reflexivity|]. split.
    + unfold available in *. cbn [flat_map snd received]. now rewrite A.
    + intros L. destruct (K L) as [->|(l' & t & e & ->)]; [now left|right]. exists ((now, RdData o) :: l'), t, e. reflexivity.
  - destruct (_ >=? _) eqn:Ef; [injection E as <- <- <-; exists []; repeat split; auto; lia|]. injection E as <- <- <-.
    exists [(now, RdErr e)]. repeat split; auto. intros _. right. exists [], now, e. reflexivity.
Qed.

Lemma incomplete_short o : incomplete o -> lenZ o < 16393.
Proof. unfold incomplete, MAX_FRAME_SIZE. intros [H|(h & _ & Hl & H)]; lia. Qed.

Section Waiting.
  Variable W : Type.
  Variable app : request -> W -> W * app_answer.
  Variable cs : bool.
  Variable T : tree.

  Lemma dispatch_wants c w c' ev w' : all_bytes (c_rbuf c) -> c_state c <> AwaitingHandshake ->
    dispatch W app cs T c w = Ret (Return WantRead, c', ev, w') -> lenZ (c_rbuf c) < 49152.
  Proof.
    intros Hb Hs E. apply dispatch_inv in E; auto.
    destruct E as [(_ & L & _)|[(_ & _ & _ & ? & _)|[(rest & ev2 & _ & Er & _ & E)|[(_ & E)|[(_ & ? & _)|[(_ & ? & _)|(_ & ? & _)]]]]]]; try discriminate; [lia|..].
    - rewrite Er in Hb. apply all_bytes_app in Hb as [_ Hb]. apply try_read_frame_inv in E; [|exact Hb]. cbn [c_rbuf] in E.
      destruct E as [(_ & _ & _ & _ & Hi)|[(? & _)|(o & r & f & fe & d & e & _ & _ & _ & H)]]; [|discriminate|destruct fe; destruct H; discriminate].
      apply incomplete_short in Hi. rewrite Er, lenZ_app. change (lenZ CLIENT_PREFACE) with 24. lia.
    - apply try_read_frame_inv in E; [|exact Hb].
      destruct E as [(_ & _ & _ & _ & Hi)|[(? & _)|(o & r & f & fe & d & e & _ & _ & _ & H)]]; [|discriminate|destruct fe; destruct H; discriminate].
      apply incomplete_short in Hi. lia.
  Qed.

  Lemma dispatch_awake c w c' ev w' : all_bytes (c_rbuf c) -> c_state c <> AwaitingHandshake ->
    dispatch W app cs T c w = Ret (Continue, c', ev, w') -> c_state c' <> AwaitingHandshake.
  Proof.
    assert (Hf : forall c1 ev1, all_bytes (c_rbuf c1) -> c_state c1 = AwaitingFrame -> try_read_frame W app cs T c1 w = Ret (Continue, c', ev1, w') ->
      c_state c' <> AwaitingHandshake).
    { intros c1 ev1 Hb Ef E Es. apply try_read_frame_inv in E; auto.
      destruct E as [(? & _)|[(_ & -> & _)|(o & r2 & f & fe & d & e & _ & _ & Hp & Hfe)]]; try easy.
      apply process_frame_inv in Hp. destruct fe as [|st|]; destruct Hfe as [? ->]; cbn in Es; try congruence.
      subst st. decompose [or and ex] Hp; congruence. }
    intros Hb Hs E. apply dispatch_inv in E; auto.
    destruct E as [(_ & _ & ? & _)|[(_ & _ & _ & ? & _)|[(rest & ev2 & _ & Er & _ & E)|[(Ef & E)|[(_ & ? & _)|[(_ & ? & _)|(_ & ? & _)]]]]]]; try easy.
    - rewrite Er in Hb. apply all_bytes_app in Hb as [_ Hb]. apply (Hf _ _) in E; [exact E|exact Hb|reflexivity].
    - exact (Hf _ _ Hb Ef E).
  Qed.

  Lemma loop_drained fuel : forall s c w c' ev w', buffered c -> Forall rd_ok (sc_rd s) ->
    internal_process W app cs T fuel s c w = Ret (Return WantRead, c', ev, w') ->
    (c_state c = AwaitingHandshake /\ ev = []) \/ drained (sc_rd s) (received ev).
  Proof.
    induction fuel as [|fuel IH]; intros s c w c' ev w' HB Hrd E; [discriminate|]. cbn [internal_process] in E.
    set (H0 := match c_state c with AwaitingHandshake => handle_handshake (sc_hs s) c | _ => _ end) in E.
    assert (HH : (exists r c0 ev hs, H0 = (Some r, c0, ev, hs) /\ (r = WantRead -> c_state c = AwaitingHandshake /\ ev = [])) \/
                 (exists c0 ev0 hs, H0 = (None, c0, ev0, hs) /\ c_rbuf c0 = c_rbuf c /\ received ev0 = [] /\ c_state c0 <> AwaitingHandshake)).
    { subst H0. destruct (c_state c) eqn:Es;
        try (right; exists c, [], (sc_hs s); rewrite Es; repeat split; auto; easy).
      unfold handle_handshake. destruct (sc_hs s) as [|[now [|[]]] hs'] eqn:Eh;
        try (left; eexists _, _, _, _; split; [reflexivity|]; intros HW; first [discriminate HW|split; reflexivity]).
      right. eexists _, _, _. do 3 (split; [reflexivity|]). easy. }
    destruct HH as [(r & c0 & ev0 & hs & EH & Hr)|(c0 & ev0 & hs & EH & E1 & Hr0 & Hs0)]; rewrite EH in E;
      [injection E as -> <- <- _; left; auto|]. clear EH H0. right.
    assert (HB0 : buffered c0) by (unfold buffered; now rewrite E1). clear E1.
    destruct (flush_write_buffer (sc_wr s) c0) as [[c1 ev1] wr'] eqn:Ef.
    pose proof (flush_rbuf _ _ _ _ _ Ef) as E1. pose proof (flush_state _ _ _ _ _ Ef Hs0) as Hs1. pose proof (flush_received _ _ _ _ _ Ef) as Hr1.
    assert (HB1 : buffered c1) by (unfold buffered; now rewrite E1).
    destruct (c_wbuf c1) as [|x xs] eqn:Ew; [|discriminate].
    destruct (fill_read_buffer (sc_rd s) c1) as [[c2 ev2] rd'] eqn:Efill.
    pose proof (fill_rest _ _ _ _ _ _ Efill Hrd) as Hrd2.
    destruct (fill_buffered W app (fun _ _ => True) w _ _ _ _ _ Hrd HB1 Efill) as (HB2 & _).
    destruct (fill_state _ _ _ _ _ Efill) as [_ Hs2]. specialize (Hs2 Hs1).
    destruct (fill_drained _ _ _ _ _ Efill) as (l & El & Al & Kl).
    destruct (dispatch W app cs T c2 w) as [[[[v c3] ev3] w3]| | |] eqn:Ed; cbn [obind] in E; try discriminate.
    pose proof Ed as Ed2. apply dispatch_quiet in Ed2 as (Hq & _ & _); [|apply HB2|auto]. apply qos_received in Hq as [Hq _].
    destruct v as [|r|]; [|injection E as -> <- <- <-|discriminate].
    - destruct (internal_process W app cs T fuel (Scripts hs rd' wr') c3 w3) as [[[[v4 c4] ev4] w4]| | |] eqn:Eloop; cbn [obind] in E; try discriminate.
      injection E as -> <- <- <-. rewrite !received_app, Hr0, Hr1, Hq. cbn [Datatypes.app].
      destruct (IH (Scripts hs rd' wr') c3 w3 _ _ _ ltac:(eapply dispatch_buffered; eauto) Hrd2 Eloop) as [[Hh ->]|(l2 & rest & E2 & A2 & K2)].
      + now apply dispatch_awake in Ed; [|apply HB2|].
      + cbn [sc_rd] in E2. exists (l ++ l2), rest. rewrite El, E2, app_assoc. split; [reflexivity|]. split; [rewrite available_app; congruence|].
        destruct K2 as [->|(l' & t & e & ->)]; [now left|right]. exists (l ++ l'), t, e. now rewrite app_assoc.
    - rewrite !received_app, Hr0, Hr1, Hq, app_nil_r. cbn [Datatypes.app].
      exists l, rd'. split; [exact El|]. split; [exact Al|]. apply Kl. exact (dispatch_wants _ _ _ _ _ (proj1 HB2) Hs2 Ed).
  Qed.

  Lemma waiting_drained others t0 w0 A r c tr w s c' ev w' : session W app cs T others t0 w0 A r c tr w -> scripts_ok s ->
    process W app cs T s c w = Ret (WantRead, c', ev, w') ->
    (c_state c = AwaitingHandshake /\ ev = []) \/ drained (sc_rd s) (received ev).
  Proof.
    intros H Hs E. apply buffer_bounded in H. unfold process in E.
    destruct (internal_process W app cs T _ s c w) as [[[[v c1] ev1] w1]| | |] eqn:Ei; cbn [obind] in E; try discriminate.
    destruct v as [|r1|]; try discriminate. injection E as -> <- <- <-. exact (loop_drained _ _ _ _ _ _ _ H Hs Ei).
  Qed.
End Waiting.

(** ** Lengths *)
Lemma lengths_app a b : lengths (a ++ b) = lengths a ++ lengths b.
Proof. unfold lengths. now rewrite filter_app, map_app. Qed.
Lemma sent_lengths r fields : response_fields r fields ->
  (rs_body r = [] -> lengths fields = lengths (rs_headers r)) /\
  (rs_body r <> [] -> exists n, decimal n (lenZ (rs_body r)) /\ lengths fields = lengths (rs_headers r) ++ [n]).
Proof.
  intros (st & len & -> & _ & H1 & H2).
  assert (E : lengths (Hdr (str ":status") st :: rs_headers r ++ len ++ [Hdr (str "server") (str "ion"); Hdr (str "x-powered-by") (str "ion")]) =
    lengths (rs_headers r) ++ lengths len).
  { change (Hdr (str ":status") st :: ?l) with ([Hdr (str ":status") st] ++ l). rewrite !lengths_app. cbn. now rewrite app_nil_r. }
  split; intros Hb.
  - rewrite E, (H1 Hb). cbn. apply app_nil_r.
  - destruct (H2 Hb) as (n & Hn & ->). exists n. split; [exact Hn|]. rewrite E. reflexivity.
Qed.

(** ** Lengths that handlers of the program set *)
From Verif Require Import FileSys SpecFiles App SpecProgram.
Lemma program_lengths page a o nnp p m r : program_answer page a o nnp p m r -> lengths (rs_headers r) = [] \/
  (rs_body r = [] /\ m = HEAD /\ exists l io b n, os_fs o l = Some (EFile true io b) /\ decimal n (lenZ b) /\ lengths (rs_headers r) = [n]).
Proof.
  assert (F : forall io t b r l, os_fs o l = Some (EFile true io b) -> file_content (bytes_eqb m HEAD) io t b r -> lengths (rs_headers r) = [] \/
    (rs_body r = [] /\ m = HEAD /\ exists l io b n, os_fs o l = Some (EFile true io b) /\ decimal n (lenZ b) /\ lengths (rs_headers r) = [n])).
  { intros io t b r' l Hl. unfold file_content. destruct (bytes_eqb m HEAD) eqn:E.
    - intros (n & Hn & ->). right. apply bytes_eqb_eq in E. repeat split; [exact E|]. now exists l, io, b, n.
    - destruct io; intros ->; now left. }
  intros [r' H _|r' l b t _ _ _ _ _|r' _ _ _ _]; [|now left..]. destruct H as [st now _ _ _|r' _ _ Ht|url root r' _ _ Hf|_ _]; [now left| | |now left].
  - destruct Ht; now left.
  - destruct Hf; try (now left); eapply F; eassumption.
Qed.
