(** Sending and waiting: what is unsent when, back-pressure, GOAWAY. *)
From Verif Require Import Base BaseLemmas SpecFrames SpecHpack SpecHpackEnc Huffman DynTable HpackDec HpackDecProofs HpackEnc
  Frames FramesProofs Http Conn SpecConn ConnLemmas ConnRule ConnBasic ConnTerm ConnRun ConnSpec ConnMain ConnDet ConnMore.

(** C33: so many octets always contain something to process. *)
Lemma full_not_partial x : all_bytes x -> 16393 <= lenZ x ->
  (exists f o r, frame_octets f o /\ x = o ++ r) \/ (exists len, announces x len /\ 16384 < len).
Proof.
  intros Hb Hl. destruct (parse_total x ltac:(lia) Hb) as (h & E & Hlen & _ & _ & F).
  destruct (Z.leb_spec (fh_length h) 16384) as [Hs|Hs].
  2: { right. exists (fh_length h). split; [|exact Hs].
       exists (firstn 9 x), (fh_type h), (fh_flags h), (fh_stream h), (skipn 9 x). now rewrite firstn_skipn. }
  left. set (n := Z.to_nat (fh_length h)). set (p := firstn n (skipn 9 x)).
  assert (Hp : lenZ p = fh_length h).
  { unfold p, lenZ in *. rewrite firstn_length, skipn_length. subst n. lia. }
  exists (WFrame (fh_type h) (fh_flags h) (fh_stream h) p), (firstn 9 x ++ p), (skipn n (skipn 9 x)). split.
  - exists (firstn 9 x). split; [reflexivity|]. cbn [w_payload w_type w_flags w_stream]. now rewrite Hp.
  - unfold p. now rewrite <- app_assoc, !firstn_skipn.
Qed.

Section Last.
  Variable W : Type.
  Variable app : request -> W -> W * app_answer.
  Variable cs : bool.
  Variable T : tree.
  Variable others : W -> W -> Prop.
  Variable t0 : Z.
  Variable w0 : W.
  Notation session := (session W app cs T others t0 w0).

  Lemma process_request_events hs w w' r ev : process_request W app hs w = (w', r, ev) ->
    ev = [] \/ exists rq a, ev = [EvRequest rq a].
  Proof.
    unfold process_request. destruct (get_header hs (str ":path")); [destruct (get_header hs (str ":method"))|];
      try (intros [= _ _ <-]; auto).
    destruct (app _ w) as [w1 []]; intros [= _ _ <-]; eauto.
  Qed.

  (** A request is the first thing that happens when a frame is processed. *)
  Lemma dispatch_requests c w v c' ev w' a rq an b : all_bytes (c_rbuf c) -> c_state c <> AwaitingHandshake ->
    dispatch W app cs T c w = Ret (v, c', ev, w') -> ev = a ++ EvRequest rq an :: b ->
    a = [] \/ (a = [EvQueue write_settings] /\ c_state c = AwaitingPreface).
  Proof.
    intros Hb Hs E Ev. apply dispatch_inv in E; auto.
    assert (X : forall c w v c' ev w' a, all_bytes (c_rbuf c) -> try_read_frame W app cs T c w = Ret (v, c', ev, w') ->
      ev = a ++ EvRequest rq an :: b -> a = []).
    { clear. intros c w v c' ev w' a Hb E Ev. apply try_read_frame_inv in E; auto.
      destruct E as [(_ & _ & -> & _)|[(_ & _ & -> & _)|(o & r2 & f & fe & d & e & _ & _ & Hp & _)]]; try (now destruct a).
      apply process_frame_inv in Hp.
      assert (Hev : forall x, ev = x -> (x = [] \/ x = [EvQueue write_settings_ack]) -> a = []).
      { intros x -> [-> | ->]; destruct a as [|? [|]]; auto; discriminate. }
      destruct Hp as [Hp|[Hp|[Hp|[Hp|[Hp|[Hp|Hp]]]]]];
        try (decompose [and] Hp; subst; destruct a as [|? [|]]; auto; discriminate).
      destruct Hp as (_ & bl & _ & [Hp|[(er & Hp)|(hdrs & resp & evr & _ & Hr & Hp)]]);
        try (decompose [and] Hp; subst; destruct a as [|? [|]]; auto; discriminate).
      apply process_request_events in Hr.
      assert (Y : forall l, Forall (fun e => match e with EvRequest _ _ => False | _ => True end) l -> ev = evr ++ l -> a = []).
      { intros l Hl Ee. rewrite Ev in Ee. destruct Hr as [->|(rq' & an' & ->)].
        - cbn [Datatypes.app] in Ee. rewrite <- Ee in Hl. apply Forall_app in Hl as [_ Hl]. apply Forall_inv in Hl. easy.
        - destruct a as [|x a]; auto. cbn [Datatypes.app] in Ee. injection Ee as _ Ee. rewrite <- Ee in Hl.
          apply Forall_app in Hl as [_ Hl]. apply Forall_inv in Hl. easy. }
      destruct Hp as [(_ & _ & _ & ->)|(rs & _ & [(_ & _ & _ & ->)|(bl' & data & _ & _ & _ & ->)])].
      - apply (Y []); [constructor|now rewrite app_nil_r].
      - apply (Y []); [constructor|now rewrite app_nil_r].
      - eapply Y; [|reflexivity]. repeat constructor. }
    destruct E as [(_ & _ & _ & _ & -> & _)|[(_ & _ & _ & _ & _ & -> & _)|[(rest & ev2 & Es & Er & -> & E)|
      [(Ef & E)|[(_ & _ & _ & -> & _)|[(_ & _ & _ & -> & _)|(_ & _ & _ & -> & _)]]]]]];
      try (destruct a as [|? [|]]; discriminate).
    - right. rewrite Er in Hb. apply all_bytes_app in Hb as [_ Hb]. destruct a as [|x a]; [discriminate|].
      cbn [Datatypes.app] in Ev. injection Ev as <- Ev. apply (X _ _ _ _ _ _ a) in E; auto. subst a. auto.
    - left. apply (X _ _ _ _ _ _ a) in E; auto.
  Qed.

  Definition backpressure (tr : trace) : Prop := forall a rq an b, tr = a ++ EvRequest rq an :: b ->
    delivered a = queued a \/ (queued a = write_settings /\ delivered a = [] /\ requests a = []).

  Lemma mid_split {A} (tr ev a b : list A) e : tr ++ ev = a ++ e :: b ->
    (exists b', tr = a ++ e :: b') \/ (exists a', ev = a' ++ e :: b /\ a = tr ++ a').
  Proof.
    revert a. induction tr as [|x tr IH]; intros a E; cbn [Datatypes.app] in E; [right; now exists a|].
    destruct a as [|y a]; cbn [Datatypes.app] in E.
    - injection E as -> _. left. now exists tr.
    - injection E as -> E. destruct (IH a E) as [(b' & ->)|(a' & -> & ->)]; [left; now exists b'|right; now exists a'].
  Qed.

  Lemma bp_no_request tr ev : Forall (fun e => match e with EvRequest _ _ => False | _ => True end) ev ->
    backpressure tr -> backpressure (tr ++ ev).
  Proof.
    intros Hf H a rq an b E. apply mid_split in E as [(b' & ->)|(a' & -> & ->)]; [eapply H; reflexivity|].
    apply Forall_app in Hf as [_ Hf]. apply Forall_inv in Hf. easy.
  Qed.

  Definition early (c : conn) : Prop := c_state c = AwaitingHandshake \/ c_state c = AwaitingPreface.

  Lemma dispatch_late c w v c' ev w' : all_bytes (c_rbuf c) -> c_state c <> AwaitingHandshake ->
    dispatch W app cs T c w = Ret (v, c', ev, w') -> (c' = c /\ ev = []) \/ ~ early c'.
  Proof.
    assert (TR : forall c c' v ev, all_bytes (c_rbuf c) -> c_state c = AwaitingFrame ->
              try_read_frame W app cs T c w = Ret (v, c', ev, w') -> ~ early c').
    { clear. intros c c' v ev Hb Hs E. unfold early. apply try_read_frame_inv in E; auto.
      destruct E as [(_ & -> & _)|[(_ & -> & _)|(o & r & f & fe & d & e & _ & _ & Ep & Hfe)]];
        [rewrite Hs; intros [?|?]; discriminate|intros [?|?]; discriminate|].
      destruct fe as [|s|]; destruct Hfe as [Hv ->]; cbn [c_state];
        try (rewrite Hs; intros [?|?]; discriminate).
      apply process_frame_inv in Ep. intros [-> | ->]; decompose [or and ex] Ep; congruence. }
    intros Hb Hs E. apply dispatch_inv in E; auto.
    destruct E as [(_ & _ & _ & -> & -> & _)|[(_ & _ & _ & _ & -> & -> & _)|[(rest & ev2 & _ & Er & _ & E)|
      [(Ef & E)|[(_ & _ & -> & _)|[(_ & _ & -> & _)|(_ & _ & -> & -> & _)]]]]]]; auto.
    - rewrite Er in Hb. apply all_bytes_app in Hb as [_ Hb]. right. eapply TR; [| |exact E]; easy.
    - right. eapply TR; [| |exact E]; auto.
    - right. intros [?|?]; discriminate.
    - right. intros [?|?]; discriminate.
  Qed.

  Definition inv (c : conn) (tr : trace) (_ : W) : Prop :=
    delivered tr ++ c_wbuf c = queued tr /\
    (early c -> queued tr = [] /\ delivered tr = [] /\ requests tr = []) /\ backpressure tr.

  Lemma quiet_step c c' tr e w : inv c tr w -> c_wbuf c' = c_wbuf c -> (early c' -> early c) ->
    delivered [e] = [] -> queued [e] = [] -> match e with EvRequest _ _ => False | _ => True end ->
    inv c' (tr ++ [e]) w.
  Proof.
    intros (H1 & H2 & H3) Hw He Hd Hq Hr. split; [|split].
    - now rewrite delivered_app, queued_app, Hd, Hq, !app_nil_r, Hw.
    - intros X. apply He, H2 in X as (X1 & X2 & X3). rewrite queued_app, delivered_app, requests_app, X1, X2, X3, Hd, Hq.
      repeat split. now destruct e.
    - apply bp_no_request; auto.
  Qed.

  Lemma dispatch_inv_step c tr w v c' ev w' : inv c tr w -> buffered c -> c_wbuf c = [] -> c_state c <> AwaitingHandshake ->
    dispatch W app cs T c w = Ret (v, c', ev, w') -> inv c' (tr ++ ev) w'.
  Proof.
    intros (H1 & H2 & H3) [Hb _] Hw Hs E. pose proof E as E'. apply dispatch_quiet in E' as (Hq & Hw' & _); auto.
    apply qos_received in Hq as [_ Hd].
    rewrite Hw, app_nil_r in H1. split; [|split].
    - rewrite delivered_app, queued_app, Hd, app_nil_r, Hw', Hw, H1. reflexivity.
    - intros X. destruct (dispatch_late _ _ _ _ _ _ Hb Hs E) as [[-> ->]|Y]; [|now apply Y in X].
      rewrite app_nil_r. auto.
    - intros a rq an b Ea. apply mid_split in Ea as [(b' & ->)|(a' & Ea & ->)]; [eapply H3; reflexivity|].
      destruct (dispatch_requests _ _ _ _ _ _ _ _ _ _ Hb Hs E Ea) as [->|[-> Es]].
      + left. rewrite app_nil_r. exact H1.
      + right. destruct (H2 (or_intror Es)) as (X1 & X2 & X3).
        rewrite queued_app, delivered_app, requests_app, X1, X2, X3. repeat split.
  Qed.

  (** C74 *)
  Lemma requests_wait r c tr w :
    session (fun s => Forall any (sc_rd s) /\ Forall whole_writes (sc_wr s)) r c tr w -> backpressure tr.
  Proof.
    intros H.
    eapply (session_rule_buffered W app cs T others t0 w0 any whole_writes inv
      (fun r c tr w => backpressure tr /\ (r <> DiscardConnection -> inv c tr w))) in H.
    - destruct r as [r|]; [exact (proj1 (proj1 H))|exact (proj2 (proj2 (proj1 H)))].
    - split; [reflexivity|]. split; [now auto|]. intros a rq an b E. destruct a; discriminate.
    - auto.
    - auto.
    - intros now c1 tr1 w1 HP Es. eapply quiet_step; eauto. intros _. now left.
    - intros c1 tr1 w1 HP Es. split; [apply HP|auto].
    - intros e c1 tr1 w1 HP Es _. split; [|easy]. apply bp_no_request; [repeat constructor|apply HP].
    - intros wr c1 tr1 w1 c2 ev wr' HP _ Hal Hs E. unfold flush_write_buffer in E.
      destruct (c_wbuf c1) as [|x xs] eqn:Ew; [injection E as <- <- _; now rewrite app_nil_r|].
      pose proof HP as (H1 & H2 & H3).
      assert (Hne : ~ early c1).
      { intros X. destruct (H2 X) as (X1 & X2 & _). rewrite X1, X2, Ew in H1. discriminate. }
      assert (Y : forall c' e, c_state c' = c_state c1 \/ c_state c' = StProtocolError ->
                delivered [e] ++ c_wbuf c' = c_wbuf c1 -> queued [e] = [] -> match e with EvRequest _ _ => False | _ => True end ->
                inv c' (tr1 ++ [e]) w1).
      { intros c' e Hc Hd Hq Hr. split; [|split].
        - rewrite delivered_app, queued_app, Hq, app_nil_r, <- H1, <- app_assoc. now f_equal.
        - intros X. exfalso. unfold early in *. destruct Hc as [Hc|Hc]; rewrite Hc in X; [tauto|destruct X; discriminate].
        - apply bp_no_request; auto. }
      destruct wr as [|[now [n|k|e]] wr].
      + injection E as <- <- _. apply Y; auto. 
      + injection E as <- <- _. apply Y; auto. cbn [delivered flat_map c_wbuf]. rewrite app_nil_r, Ew. apply firstn_skipn.
      + apply Forall_cons_iff in Hal as [Hk _]. unfold whole_writes in Hk. cbn [snd] in Hk.
        injection E as <- <- _. apply Y; auto. replace (Z.to_nat k) with O by lia. reflexivity.
      + injection E as <- <- _. apply Y; auto; destruct e; auto.
    - intros c1 tr1 w1 HP _ _. split; [apply HP|auto].
    - intros now o c1 tr1 w1 HP _ Hw Hs _ _ _ _. eapply quiet_step; eauto.
    - intros now e c1 tr1 w1 HP _ Hw Hs _. eapply quiet_step; eauto; destruct e; auto; intros [X|X]; discriminate X.
    - intros c1 tr1 w1 c2 ev w2 HP HB Hw Hs E. eapply dispatch_inv_step; eauto.
    - intros c1 tr1 w1 r1 c2 ev w2 HP HB Hw Hs E. apply (dispatch_inv_step _ tr1) in E; auto. split; [apply E|auto].
    - intros c1 tr1 w1 c2 ev w2 HP HB Hw Hs E. apply (dispatch_inv_step _ tr1) in E; auto. split; [apply E|easy].
    - intros r1 c1 tr1 w1 [_ HQ] Hr. auto.
  Qed.

  (** C36 *)
  Lemma nothing_unsent c tr w :
    session (fun s => Forall any (sc_rd s) /\ Forall whole_writes (sc_wr s)) (Some WantRead) c tr w ->
    delivered tr = queued tr \/ (delivered tr = [] /\ queued tr = write_settings /\ requests tr = []).
  Proof.
    intros H. pose proof (no_loss _ _ _ _ _ _ _ _ _ _ _ H) as Hq. apply session_run in H as [HP H].
    unfold P in HP. destruct (c_state c); try easy.
    - destruct HP as (_ & _ & Hw & _). rewrite Hw, app_nil_r in Hq. auto.
    - destruct HP as (_ & Hw & _). rewrite Hw, app_nil_r in Hq. auto.
    - destruct H as [_ [Hw|(Hw & Hd & Ha)]]; [rewrite Hw, app_nil_r in Hq; auto|right].
      rewrite <- requests_acts, Ha, <- Hq, Hd, Hw. auto.
  Qed.

  (** C45 *)
  Lemma waits_to_write A c tr w : session A (Some WantWrite) c tr w -> c_wbuf c <> [].
  Proof. intros H. apply session_run in H as [_ H]. exact H. Qed.

  (** C40 *)
  Lemma all_handled (HT : is_tree T) (Happ : answers_ok cs app) A c tr w ins o x :
    session A (Some WantRead) c tr w ->
    received tr = rfc_preface ++ o ++ x -> frames_octets ins o -> Forall (fun f => lenZ (w_payload f) <= 16384) ins ->
    exists more txs outs rest, conversation others app w0 tr (ins ++ more) txs outs [] [] rest /\ partial_frame rest.
  Proof.
    intros H Hr Ho Hs. pose proof (received_bytes _ _ _ _ _ _ _ _ _ _ _ _ H) as Hb.
    apply session_story in H as [H|H].
    - exfalso. destruct H as (_ & _ & _ & H & _). specialize (H eq_refl).
      rewrite Hr, lenZ_app in H. change (lenZ rfc_preface) with 24 in H. pose proof (lenZ_nonneg (o ++ x)). lia.
    - destruct (after_conversation W app cs T others w0 HT Happ _ tr Hb H)
        as (ins1 & txs & outs & byes & esc & rest & Hc & _ & _ & H4 & H5 & _).
      destruct H4 as [-> ->]; [discriminate|]. specialize (H5 eq_refl).
      pose proof Hc as [(o1 & Ho1 & Hr1) Hs1 _ _ _ _ _ _ _].
      rewrite Hr1 in Hr. apply app_inv_head in Hr. rewrite Hr1 in Hb. apply all_bytes_app in Hb as [_ Hb].
      destruct (frames_prefix _ _ _ _ _ _ Hb Ho1 Hs1 Ho Hs Hr)
        as [(more & om & -> & Hm & -> & Hsm)|(f & more & fo & r' & -> & Hf & -> & Hl)].
      + destruct Hm as (os & Hm & ->). destruct Hm as [|f fo more os Hf _].
        * exists [], txs, outs, x. rewrite !app_nil_r in *. auto.
        * cbn [concat] in H5. rewrite <- app_assoc in H5. now apply (not_partial f) in H5.
      + exists (f :: more), txs, outs, rest. auto.
  Qed.

  (** ** C37 *)
  Definition other_frame (e : event) : Prop := match e with EvQueue o => nth_error o 3 <> Some 7 | _ => True end.

  Lemma data_first fuel stream body data : write_data_response fuel stream body = Ret data -> nth_error data 3 <> Some 7.
  Proof.
    destruct body as [|x body]; [destruct fuel; intros [= <-]; discriminate|].
    destruct fuel as [|fuel]; [discriminate|]. cbn [write_data_response].
    destruct (write_data_response fuel _ _) as [more| | |]; cbn [obind]; try discriminate.
    intros E. apply ret_inj in E. rewrite <- E. discriminate.
  Qed.

  Lemma dispatch_goaway c w v c' ev w' : all_bytes (c_rbuf c) -> c_state c <> AwaitingHandshake ->
    dispatch W app cs T c w = Ret (v, c', ev, w') ->
    Forall other_frame ev \/ (exists o, ev = [EvQueue o]) /\ v = Return DiscardConnection.
  Proof.
    assert (TR : forall c c' v ev, all_bytes (c_rbuf c) -> try_read_frame W app cs T c w = Ret (v, c', ev, w') -> Forall other_frame ev).
    { clear. intros c c' v ev Hb E. apply try_read_frame_inv in E; auto.
      destruct E as [(_ & _ & -> & _)|[(_ & _ & -> & _)|(o & r2 & f & fe & d & e & _ & _ & Hp & _)]]; [constructor|constructor|].
      apply process_frame_inv in Hp.
      destruct Hp as [Hp|[Hp|[Hp|[Hp|[Hp|[Hp|Hp]]]]]];
        try (decompose [and] Hp; subst; repeat constructor; discriminate).
      destruct Hp as (_ & bl & _ & [Hp|[(er & Hp)|(hdrs & resp & evr & _ & Hr & Hp)]]);
        try (decompose [and] Hp; subst; repeat constructor; discriminate).
      apply process_request_events in Hr.
      assert (Hr' : Forall other_frame evr) by (destruct Hr as [->|(rq & an & ->)]; repeat constructor).
      destruct Hp as [(_ & _ & _ & ->)|(rs & _ & [(_ & _ & _ & ->)|(bl' & data & _ & Hd & _ & ->)])]; auto.
      apply Forall_app; split; auto. constructor; [|constructor; [|repeat constructor]].
      - cbn [other_frame]. unfold write_headers_response. destruct (rs_body rs); discriminate.
      - cbn [other_frame]. eapply data_first; eauto. }
    intros Hb Hs E. apply dispatch_inv in E; auto.
    destruct E as [(_ & _ & _ & _ & -> & _)|[(_ & _ & _ & _ & _ & -> & _)|[(rest & ev2 & _ & Er & -> & E)|
      [(Ef & E)|[(_ & _ & _ & -> & _)|[(_ & -> & _ & -> & _)|(_ & _ & _ & -> & _)]]]]]]; try (left; now repeat constructor).
    - rewrite Er in Hb. apply all_bytes_app in Hb as [_ Hb]. left. constructor; [discriminate|]. eapply TR; [|exact E]; easy.
    - left. eapply TR; [|exact E]; auto.
    - right. split; eauto.
  Qed.

  Lemma goaway_dropped A r c tr w a o b : session A r c tr w -> tr = a ++ EvQueue o :: b -> nth_error o 3 = Some 7 ->
    r = Some DiscardConnection /\ b = [].
  Proof.
    intros H. apply session_any in H.
    eapply (session_rule_buffered W app cs T others t0 w0 any any (fun _ tr _ => Forall other_frame tr)
      (fun r _ tr _ => match r with
         | DiscardConnection => Forall other_frame tr \/ exists tr' o, tr = tr' ++ [EvQueue o] /\ Forall other_frame tr'
         | _ => Forall other_frame tr end)) in H.
    - destruct H as [H _]. intros E Ho.
      assert (X : ~ Forall other_frame tr).
      { intros X. rewrite E in X. apply Forall_app in X as [_ X]. apply Forall_inv in X. contradiction. }
      destruct r as [[]|]; try contradiction. split; [auto|]. destruct H as [H|(tr' & o' & -> & H)]; [contradiction|].
      destruct (mid_split _ _ _ _ _ E) as [(b' & ->)|(a' & E2 & _)].
      + apply Forall_app in H as [_ H]. apply Forall_inv in H. contradiction.
      + destruct a' as [|? [|]]; [|discriminate|discriminate]. injection E2 as _ <-. reflexivity.
    - constructor.
    - auto.
    - auto.
    - intros. apply Forall_app; split; [auto|repeat constructor].
    - auto.
    - intros. left. apply Forall_app; split; [auto|repeat constructor].
    - intros wr c1 tr1 w1 c2 ev wr' HP _ _ _ E. apply Forall_app; split; [auto|]. unfold flush_write_buffer in E.
      destruct (c_wbuf c1); [injection E as _ <- _; constructor|].
      destruct wr as [|[now [n|k|e]] wr]; injection E as _ <- _; repeat constructor.
    - auto.
    - intros. apply Forall_app; split; [auto|repeat constructor].
    - intros. apply Forall_app; split; [auto|repeat constructor].
    - intros c1 tr1 w1 c2 ev w2 HP [Hb _] _ Hs E. apply dispatch_goaway in E as [E|[_ E]]; auto; [|discriminate].
      apply Forall_app; auto.
    - intros c1 tr1 w1 r1 c2 ev w2 HP [Hb _] _ Hs E. apply dispatch_goaway in E as [E|[(o' & ->) [= ->]]]; auto.
      + assert (Forall other_frame (tr1 ++ ev)) by (apply Forall_app; auto). destruct r1; auto.
      + right. eauto.
    - intros c1 tr1 w1 c2 ev w2 HP [Hb _] _ Hs E. apply dispatch_goaway in E as [E|[_ E]]; auto; [|discriminate].
      left. apply Forall_app; auto.
    - intros [] c1 tr1 w1 HQ Hr; auto. contradiction.
  Qed.
End Last.

(** ** C30, C31: single transactions *)
Lemma data_frames_layout stream body ds : data_frames stream body ds -> data_layout stream body ds /\ ds <> [].
Proof.
  induction 1 as [c Hc|c body fs Hc _ [(IH1 & IH2 & IH3) IH4]].
  - split; [|discriminate]. split; [cbn; now rewrite app_nil_r|]. split; [repeat constructor; cbn; lia|].
    intros _. exists [], (WFrame 0 1 stream c). repeat split. constructor.
  - split; [|discriminate]. split; [cbn [map concat w_payload]; now rewrite IH1|]. split; [constructor; auto|].
    intros _. destruct (IH3 IH4) as (ds' & f & -> & H1 & H2). exists (WFrame 0 0 stream c :: ds'), f.
    repeat split; auto.
Qed.

Lemma response_layout stream block body fs : response_frames stream block body fs -> exists fl ds,
  fs = WFrame 1 fl stream block :: ds /\ data_layout stream body ds /\ ((ds = [] /\ fl = 5) \/ (ds <> [] /\ fl = 4)).
Proof.
  intros [|body' fs' H].
  - exists 5, []. repeat split; auto; easy.
  - exists 4, fs'. apply data_frames_layout in H as [H Hn]. repeat split; auto; apply H.
Qed.

Lemma answered_tx ins txs outs : answered ins txs outs -> forall t1 tx t2, txs = t1 ++ tx :: t2 ->
  exists ins1 flags stream payload ins2 outs1 fs outs2,
    ins = ins1 ++ WFrame 1 flags stream payload :: ins2 /\ outs = outs1 ++ fs ++ outs2 /\
    answered ins1 t1 outs1 /\
    headers_payload false (Z.testbit flags 5) (tx_block tx) payload /\
    served (tx_fields tx) (tx_app tx) (tx_sent tx) /\
    response_frames stream (tx_sent_block tx) (rs_body (tx_sent tx)) fs.
Proof.
  induction 1 as [|ins txs outs fl s p H IH Hf Hm|ins txs outs fl s p H IH Hf|ins txs outs fl s p tx0 fs H IH Hp Hs Hr|
                   ins txs outs f H IH H1 H4 H7]; intros t1 tx t2 E.
  - destruct t1; discriminate.
  - destruct (IH _ _ _ E) as (i1 & fl1 & s1 & p1 & i2 & o1 & fs1 & o2 & -> & -> & Hx).
    exists i1, fl1, s1, p1, (i2 ++ [WFrame 4 fl s p]), o1, fs1, (o2 ++ [WFrame 4 1 0 []]).
    rewrite <- !app_assoc. auto.
  - destruct (IH _ _ _ E) as (i1 & fl1 & s1 & p1 & i2 & o1 & fs1 & o2 & -> & -> & Hx).
    exists i1, fl1, s1, p1, (i2 ++ [WFrame 4 fl s p]), o1, fs1, o2.
    rewrite <- !app_assoc. auto.
  - destruct t2 as [|t t2] using rev_ind.
    + apply app_inj_tail in E as [-> ->]. exists ins, fl, s, p, [], outs, fs, []. rewrite app_nil_r. auto 10.
    + clear IHt2. rewrite app_comm_cons, app_assoc in E. apply app_inj_tail in E as [-> ->].
      destruct (IH _ _ _ eq_refl) as (i1 & fl1 & s1 & p1 & i2 & o1 & fs1 & o2 & -> & -> & Hx).
      exists i1, fl1, s1, p1, (i2 ++ [WFrame 1 fl s p]), o1, fs1, (o2 ++ fs).
      rewrite <- !app_assoc. auto.
  - destruct (IH _ _ _ E) as (i1 & fl1 & s1 & p1 & i2 & o1 & fs1 & o2 & -> & -> & Hx).
    exists i1, fl1, s1, p1, (i2 ++ [f]), o1, fs1, o2.
    rewrite <- !app_assoc. auto.
Qed.

(** C73 *)
Lemma small_frames ins txs outs : answered ins txs outs ->
  Forall (fun f => w_type f = 1 \/ lenZ (w_payload f) <= 16256) outs.
Proof.
  assert (D : forall s body fs, data_frames s body fs -> Forall (fun f => w_type f = 1 \/ lenZ (w_payload f) <= 16256) fs).
  { induction 1; constructor; cbn [w_payload]; auto; right; lia. }
  induction 1 as [|ins txs outs fl s p H IH|ins txs outs fl s p H IH|ins txs outs fl s p tx fs H IH _ _ Hr|ins txs outs f H IH];
    auto; apply Forall_app; split; auto.
  - constructor; [right; cbn; lia|constructor].
  - destruct Hr as [|body fs Hd]; constructor; cbn [w_type]; auto. eapply D. exact Hd.
Qed.

(** C39 *)
Lemma dropped_reasons W app cs T others t0 w0 : is_tree T -> answers_ok cs app -> forall A c tr w x,
  session W app cs T others t0 w0 A (Some DiscardConnection) c tr w -> fault_free tr -> received tr = rfc_preface ++ x ->
  exists ins txs outs byes escaped rest,
    conversation others app w0 tr ins txs outs byes escaped rest /\ ended_by txs byes escaped rest.
Proof.
  intros HT Happ A c tr w x H Hf Hr. pose proof (received_bytes _ _ _ _ _ _ _ _ _ _ _ _ H) as Hb.
  apply session_story in H as [H|H].
  - exfalso. destruct H as (_ & _ & _ & _ & _ & H). destruct (H eq_refl Hf) as [_ H'].
    apply H'. rewrite Hr, preface_eq. now apply firstn_exact.
  - destruct (after_conversation W app cs T others w0 HT Happ _ tr Hb H)
      as (ins1 & txs & outs & byes & esc & rest & Hc & _ & _ & _ & _ & _ & H6).
    exists ins1, txs, outs, byes, esc, rest. auto.
Qed.
