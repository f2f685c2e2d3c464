(** From the frames handled by the model to the specification. *)
From Verif Require Import Base BaseLemmas SpecFrames SpecHpackEnc Huffman DynTable HpackDec HpackDecProofs HpackEnc
  Frames FramesProofs Http Conn SpecConn ConnLemmas ConnRule ConnBasic ConnTerm ConnRun.

Definition wf (f : frame) : wframe := WFrame (f_type f) (f_flags f) (f_stream f) (f_payload f).

Lemma preface_eq : CLIENT_PREFACE = rfc_preface.
Proof. reflexivity. Qed.

(** ** Frames and chunks *)
Lemma chunk_header o f : chunk o f ->
  frame_header_octets (fh_length (f_header f)) (f_type f) (f_flags f) (f_stream f) (firstn 9 o).
Proof.
  intros (H9 & Hb & Ep & _). destruct (parse_total o H9 Hb) as (h & E & _ & _ & _ & F).
  rewrite Ep in E. injection E as <-. exact F.
Qed.

Lemma chunk_payload_len o f : chunk o f -> lenZ (f_payload f) = fh_length (f_header f).
Proof.
  intros (H9 & _ & _ & -> & El & _). unfold lenZ in *. rewrite skipn_length. lia.
Qed.

Lemma chunk_frame_octets o f : chunk o f -> frame_octets (wf f) o.
Proof.
  intros H. exists (firstn 9 o). cbn [wf w_payload w_type w_flags w_stream].
  rewrite (chunk_payload_len o f H). split; [|now apply chunk_header].
  destruct H as (_ & _ & _ & -> & _). now rewrite firstn_skipn.
Qed.

Lemma chunk_small o f : chunk o f -> lenZ (w_payload (wf f)) <= 16384.
Proof. intros H. cbn. rewrite (chunk_payload_len o f H). apply H. Qed.

Lemma header_len9 l t f s o : frame_header_octets l t f s o -> length o = 9%nat.
Proof.
  intros (a & b & r & -> & _ & Ha & _ & Hb & _). rewrite !app_length. unfold lenZ in *. cbn. lia.
Qed.

Lemma frame_octets_chunk f o : frame_octets f o -> all_bytes o -> lenZ (w_payload f) <= 16384 ->
  exists F, chunk o F /\ wf F = f.
Proof.
  intros (h & -> & Hh) Hb Hl. pose proof (header_len9 _ _ _ _ _ Hh) as L9.
  exists (Frame (FH (lenZ (w_payload f)) (w_type f) (w_flags f) (w_stream f)) (w_payload f)).
  split; [|now destruct f].
  unfold chunk. cbn [f_header f_payload fh_length]. rewrite lenZ_app. assert (L : lenZ h = 9) by (unfold lenZ; now rewrite L9). rewrite L.
  pose proof (lenZ_nonneg (w_payload f)).
  split; [lia|]. split; [auto|]. split; [rewrite firstn_exact by auto; now apply fh_parse_spec|].
  split; [now rewrite skipn_exact|]. split; [lia|exact Hl].
Qed.

Lemma frames_chunks fs : forall o, frames_octets fs o -> all_bytes o -> Forall (fun f => lenZ (w_payload f) <= 16384) fs ->
  exists os Fs, Forall2 chunk os Fs /\ o = concat os /\ map wf Fs = fs.
Proof.
  intros o (os & H & ->). induction H as [|f o fs os Hf _ IH]; intros Hb Hl.
  - exists [], []. auto.
  - cbn [concat] in Hb. apply all_bytes_app in Hb as [Hb1 Hb2]. inversion Hl; subst.
    destruct (frame_octets_chunk f o Hf Hb1 ltac:(auto)) as (F & HF & <-).
    destruct (IH Hb2 ltac:(auto)) as (os' & Fs & HFs & E & Em).
    exists (o :: os'), (F :: Fs). split; [now constructor|]. cbn [concat map]. split; [now rewrite E|now rewrite Em].
Qed.

Lemma chunks_frames os fs : Forall2 chunk os fs -> frames_octets (map wf fs) (concat os).
Proof.
  intros H. exists os. split; auto. induction H; constructor; auto using chunk_frame_octets.
Qed.

Lemma frames_octets_app a b o p : frames_octets a o -> frames_octets b p -> frames_octets (a ++ b) (o ++ p).
Proof.
  intros (os & H1 & ->) (ps & H2 & ->). exists (os ++ ps). split; [now apply Forall2_app|now rewrite concat_app].
Qed.
Lemma frames_octets_one f o : frame_octets f o -> frames_octets [f] o.
Proof. intros H. exists [o]. split; [repeat constructor; auto|cbn; now rewrite app_nil_r]. Qed.
Lemma frames_octets_nil : frames_octets [] [].
Proof. exists []. split; constructor. Qed.
Lemma frames_octets_cons f fs o p : frame_octets f o -> frames_octets fs p -> frames_octets (f :: fs) (o ++ p).
Proof. intros H1 H2. exact (frames_octets_app [f] fs o p (frames_octets_one f o H1) H2). Qed.

(** ** What the server writes *)
Lemma ret_inj {A} (x y : A) : Ret x = Ret y -> x = y.
Proof. now intros [= ->]. Qed.

Lemma serialized_frame typ flags stream payload : is_byte typ -> is_byte flags -> 0 <= stream < 2 ^ 31 ->
  lenZ payload < 2 ^ 24 ->
  frame_octets (WFrame typ flags stream payload)
    (fh_serialize (FH (u32 (lenZ payload)) typ flags stream) ++ payload).
Proof.
  intros Ht Hf Hs Hl. eexists. split; [reflexivity|]. cbn [w_payload w_type w_flags w_stream].
  pose proof (fh_serialize_spec (u32 (lenZ payload)) typ flags stream Ht Hf) as H.
  rewrite (Z.mod_small stream) in H by auto. pose proof (lenZ_nonneg payload).
  unfold u32 in *. change (2 ^ 24) with 16777216 in *.
  rewrite (Z.mod_small (lenZ payload) 4294967296), Z.mod_small in H by lia. 
  rewrite (Z.mod_small (lenZ payload) 4294967296) by lia. exact H.
Qed.

Lemma settings_frame : frame_octets server_settings write_settings.
Proof.
  apply (serialized_frame 4 0 0 (w_payload server_settings)); [easy|easy|easy|easy].
Qed.
Lemma ack_frame : frame_octets (WFrame 4 1 0 []) write_settings_ack.
Proof.
  rewrite <- (app_nil_r write_settings_ack). apply (serialized_frame 4 1 0 []); easy.
Qed.
Lemma bye_frame : exists p, frame_octets (WFrame 7 0 0 p) (write_goaway 1 1).
Proof.
  exists [0; 0; 0; 1; 0; 0; 0; 1]. apply (serialized_frame 7 0 0 [0; 0; 0; 1; 0; 0; 0; 1]); easy.
Qed.

Lemma data_frames_spec stream fuel : 0 <= stream < 2 ^ 31 -> forall body o, body <> [] ->
  write_data_response fuel stream body = Ret o ->
  exists fs, data_frames stream body fs /\ frames_octets fs o.
Proof.
  intros Hs. induction fuel as [|f IH]; intros body o Hne E.
  - destruct body; easy.
  - destruct body as [|b body]; [easy|]. cbn [write_data_response] in E. unfold MAX_FRAME_SIZE, FRAME_TYPE_DATA, FLAG_END_STREAM in E.
    set (l := b :: body) in *. set (n := Z.min (lenZ l) (16384 - 128)) in *.
    assert (Hl : 1 <= lenZ l) by (unfold l; rewrite lenZ_cons; pose proof (lenZ_nonneg body); lia).
    assert (Hn : 1 <= n <= 16256 /\ n <= lenZ l) by (unfold n; lia).
    assert (Hlen : lenZ (firstn (Z.to_nat n) l) = n).
    { unfold lenZ in *. rewrite firstn_length. lia. }
    destruct (write_data_response f stream (skipn (Z.to_nat n) l)) as [more| | |] eqn:Em;
      cbn [obind] in E; [|discriminate E..].
    apply ret_inj in E. subst o. clearbody l n.
    pose proof (serialized_frame 0 (if lenZ l - n =? 0 then 1 else 0) stream (firstn (Z.to_nat n) l)) as Hf.
    rewrite Hlen in Hf. specialize (Hf ltac:(unfold is_byte; lia)).
    specialize (Hf ltac:(unfold is_byte; destruct (_ =? _); lia) Hs ltac:(change (2 ^ 24) with 16777216; lia)).
    destruct (lenZ l - n =? 0) eqn:E0.
    + assert (Hall : firstn (Z.to_nat n) l = l).
      { apply firstn_all2. unfold lenZ in *. lia. }
      assert (Hnone : skipn (Z.to_nat n) l = []).
      { apply skipn_all2. unfold lenZ in *. lia. }
      rewrite Hnone in Em. assert (more = []) as -> by (destruct f; cbn in Em; congruence).
      rewrite Hall in *. exists [WFrame 0 1 stream l]. split; [constructor; lia|].
      rewrite app_nil_r. now apply frames_octets_one.
    + destruct (IH (skipn (Z.to_nat n) l) more) as (fs & Hd & Ho); [|exact Em|].
      { intros Hnil. apply (f_equal (@length Z)) in Hnil. rewrite skipn_length in Hnil. unfold lenZ in *. cbn in Hnil. lia. }
      exists (WFrame 0 0 stream (firstn (Z.to_nat n) l) :: fs). split.
      * rewrite <- (firstn_skipn (Z.to_nat n) l) at 1. constructor; auto. lia.
      * rewrite app_assoc. now apply frames_octets_cons.
Qed.

Lemma response_frames_spec stream block body o : 0 <= stream < 2 ^ 31 ->
  write_data_response (length body) stream body = Ret o ->
  exists fs, response_frames stream block body fs /\
    (lenZ block < 2 ^ 24 ->
     frames_octets fs (write_headers_response stream block (match body with [] => 5 | _ :: _ => 4 end) ++ o)).
Proof.
  intros Hs E. destruct body as [|b body].
  - cbn in E. injection E as <-. exists [WFrame 1 5 stream block]. split; [constructor|]. intros Hb.
    rewrite app_nil_r. apply frames_octets_one. apply (serialized_frame 1 5); auto; unfold is_byte; lia.
  - assert (Hne : b :: body <> []) by discriminate.
    destruct (data_frames_spec stream (length (b :: body)) Hs (b :: body) o Hne E) as (fs & Hd & Ho).
    exists (WFrame 1 4 stream block :: fs). split; [now constructor|]. intros Hb.
    apply frames_octets_cons; auto. apply (serialized_frame 1 4); auto; unfold is_byte; lia.
Qed.

(** ** Flags, header blocks, header lookup *)
Lemma flag_testbit x k : 0 <= k -> negb (Z.land x (2 ^ k) =? 0) = Z.testbit x k.
Proof.
  intros Hk. destruct (Z.testbit x k) eqn:E.
  - destruct (Z.eqb_spec (Z.land x (2 ^ k)) 0) as [H|H]; [|reflexivity].
    assert (Z.testbit (Z.land x (2 ^ k)) k = true) as C by (rewrite Z.land_spec, E, Z.pow2_bits_true by lia; easy).
    rewrite H, Z.bits_0 in C. easy.
  - replace (Z.land x (2 ^ k)) with 0; [reflexivity|]. symmetry. apply Z.bits_inj'. intros i Hi.
    rewrite Z.land_spec, Z.pow2_bits_eqb, Z.bits_0 by lia.
    destruct (Z.eqb_spec k i); [subst; now rewrite E|now rewrite andb_false_r].
Qed.

Lemma has_flag_bit f k : 0 <= k -> has_flag f (2 ^ k) = Z.testbit (f_flags f) k.
Proof. intros H. now apply flag_testbit. Qed.

Lemma headers_block_payload f b : headers_block f = Ret b ->
  headers_payload false (Z.testbit (f_flags f) 5) b (f_payload f).
Proof.
  unfold headers_block, subspan_from. change 32 with (2 ^ 5). rewrite has_flag_bit by lia.
  destruct (Z.testbit (f_flags f) 5).
  - destruct (length (f_payload f) <? 5)%nat eqn:E; [easy|]. apply Nat.ltb_ge in E. intros H.
    assert (b = skipn 5 (f_payload f)) as -> by congruence.
    exists (firstn 5 (f_payload f)), []. split; [now rewrite app_nil_r, firstn_skipn|].
    split; [unfold lenZ; rewrite firstn_length; lia|]. split; [easy|auto].
  - intros [= <-]. exists [], []. split; [now rewrite app_nil_r|]. repeat split; auto; easy.
Qed.

Lemma get_header_some hs n v : get_header hs n = Some v -> first_field hs n v.
Proof.
  unfold get_header. induction hs as [|h hs IH]; cbn [find]; [easy|].
  destruct (bytes_eqb (h_name h) n) eqn:E.
  - apply bytes_eqb_eq in E. cbn. intros [= <-]. exists [], hs. split; [destruct h; cbn in *; now subst|constructor].
  - apply bytes_eqb_neq in E. intros H. destruct (IH H) as (a & b & -> & Ha). exists (h :: a), b.
    split; [reflexivity|now constructor].
Qed.

Lemma get_header_none hs n : get_header hs n = None -> no_field hs n.
Proof.
  unfold get_header, no_field. induction hs as [|h hs IH]; cbn [find]; [constructor|].
  destruct (bytes_eqb (h_name h) n) eqn:E; [easy|]. apply bytes_eqb_neq in E. constructor; auto.
Qed.

Lemma complete_fields r : 0 <= rs_status r -> response_fields r (rs_headers (complete_response r)).
Proof.
  intros Hs. eexists _, _. split; [reflexivity|]. split; [now apply to_string_spec|].
  destruct (rs_body r) eqn:E; [split; [auto|easy]|]. split; [easy|]. intros _.
  eexists. split; [|reflexivity]. apply to_string_spec. apply lenZ_nonneg.
Qed.

(** ** Codec sequences grow at the end *)
Lemma decode_seq_snoc T bs : forall t hss t1 b hs t2, decode_seq T t bs = Ret (Val hss, t1) ->
  hpack_decode T t1 b = Ret (Val hs, t2) -> decode_seq T t (bs ++ [b]) = Ret (Val (hss ++ [hs]), t2).
Proof.
  induction bs as [|b0 bs IH]; intros t hss t1 b hs t2 E1 E2; cbn [decode_seq Datatypes.app] in *.
  - injection E1 as <- <-. now rewrite E2.
  - destruct (hpack_decode T t b0) as [[[hs0|er] t']| | |]; cbn [obind] in *; try easy.
    destruct (decode_seq T t' bs) as [[[hss0|er] t'']| | |] eqn:E; cbn [obind] in *; try easy.
    injection E1 as <- <-. now rewrite (IH _ _ _ _ _ _ E E2).
Qed.
Lemma encode_seq_snoc cs hss : forall t bs t1 hs b t2, encode_seq cs t hss = Ret (bs, t1) ->
  hpack_encode cs t1 hs = Ret (b, t2) -> encode_seq cs t (hss ++ [hs]) = Ret (bs ++ [b], t2).
Proof.
  induction hss as [|h0 hss IH]; intros t bs t1 hs b t2 E1 E2; cbn [encode_seq Datatypes.app] in *.
  - injection E1 as <- <-. now rewrite E2.
  - destruct (hpack_encode cs t h0) as [[b0 t']| | |]; cbn [obind] in *; try easy.
    destruct (encode_seq cs t' hss) as [[bs0 t'']| | |] eqn:E; cbn [obind] in *; try easy.
    injection E1 as <- <-. now rewrite (IH _ _ _ _ _ _ E E2).
Qed.

Section Answered.
  Variable W : Type.
  Variable app : request -> W -> W * app_answer.
  Variable cs : bool.
  Variable T : tree.
  Variable others : W -> W -> Prop.
  Variable w0 : W.
  Hypothesis status_ok : forall rq w w' r, app rq w = (w', Answers r) -> 0 <= rs_status r.
  Notation ran := (ran W app cs T others w0).
  Notation table0 := (dt_init DEFAULT_MAX_TABLE_SIZE).

  Lemma process_request_served hs w w' rs ev l : process_request W app hs w = (w', Some rs, ev) ->
    handled others app w0 l w ->
    served hs (requests ev) rs /\ queued ev = [] /\ logged ev = [] /\ handled others app w0 (l ++ requests ev) w'.
  Proof.
    intros E Hh. apply process_request_inv in E
      as [(Hno & -> & [= ->] & ->)|(p & m & a & Hp & Hm & Ea & [(_ & ? & _)|(r & Hr & [= ->] & ->)])]; try easy.
    - cbn. rewrite app_nil_r. repeat split; auto. constructor.
      destruct Hno as [Hno|Hno]; [left|right]; now apply get_header_none.
    - cbn. repeat split; auto.
      + change (complete_response r) with
          (Response (rs_status r) (rs_headers (complete_response r)) (rs_body r)).
        apply served_app; auto using get_header_some. apply complete_fields.
        destruct Hr as [->|[_ ->]]; [eapply status_ok; eauto|cbn; lia].
      + destruct Hr as [->|[-> ->]]; [eapply handled_answers|eapply handled_fails]; eauto.
  Qed.

  Lemma ran_answered os fs d e w ev : ran os fs d e w ev -> exists txs outs,
    Forall2 chunk os fs /\ answered (map wf fs) txs outs /\
    (Forall (fun tx => lenZ (tx_sent_block tx) < 2 ^ 24) txs -> frames_octets outs (queued ev)) /\
    requests ev = concat (map tx_app txs) /\ logged ev = map log_entry txs /\
    decode_seq T table0 (map tx_block txs) = Ret (Val (map tx_fields txs), d) /\
    encode_seq cs table0 (map (fun tx => rs_headers (tx_sent tx)) txs) = Ret (map tx_sent_block txs, e) /\
    Forall all_bytes (map tx_block txs) /\
    (answers_ok cs app -> Forall (Forall (header_ok cs)) (map (fun tx => rs_headers (tx_sent tx)) txs)) /\
    handled others app w0 (requests ev) w.
  Proof.
    induction 1 as [|os fs d e w w' ev _ IH Ho|os fs d e w ev o f d' e' w' ev' _ IH Hc Hp].
    - exists [], []. repeat (split; [first [constructor|reflexivity]|]). 
      split; [intros _; apply frames_octets_nil|]. repeat (split; [reflexivity|]). split; [constructor|].
      split; [constructor|]. apply handled_none.
    - destruct IH as (txs & outs & H1 & H2 & H3 & H4 & H5 & H6 & H7 & H8 & H10 & H9).
      exists txs, outs. repeat (split; [assumption|]). eapply handled_others; eauto.
    - destruct IH as (txs & outs & H1 & H2 & H3 & H4 & H5 & H6 & H7 & H8 & H10 & H9).
      assert (Hch : Forall2 chunk (os ++ [o]) (fs ++ [f])) by (apply Forall2_app; auto).
      rewrite map_app. cbn [map].
      pose proof (chunk_bytes o f Hc) as Hpb. pose proof (chunk_header o f Hc) as Hh.
      assert (Hst : 0 <= f_stream f < 2 ^ 31) by (destruct Hh as (? & ? & ? & _ & _ & _ & _ & _ & _ & _ & Hst); exact Hst).
      assert (SAME : ev' = [] -> d' = d -> e' = e -> w' = w -> answered (map wf fs ++ [wf f]) txs outs ->
        exists txs outs, Forall2 chunk (os ++ [o]) (fs ++ [f]) /\ answered (map wf fs ++ [wf f]) txs outs /\
          (Forall (fun tx => lenZ (tx_sent_block tx) < 2 ^ 24) txs -> frames_octets outs (queued (ev ++ ev'))) /\
          requests (ev ++ ev') = concat (map tx_app txs) /\ logged (ev ++ ev') = map log_entry txs /\
          decode_seq T table0 (map tx_block txs) = Ret (Val (map tx_fields txs), d') /\
          encode_seq cs table0 (map (fun tx => rs_headers (tx_sent tx)) txs) = Ret (map tx_sent_block txs, e') /\
          Forall all_bytes (map tx_block txs) /\
          (answers_ok cs app -> Forall (Forall (header_ok cs)) (map (fun tx => rs_headers (tx_sent tx)) txs)) /\
          handled others app w0 (requests (ev ++ ev')) w').
      { intros -> -> -> -> Ha. rewrite app_nil_r. exists txs, outs. repeat (split; [assumption|]). assumption. }
      apply process_frame_inv in Hp.
      change (has_flag f 1) with (has_flag f (2 ^ 0)) in Hp. rewrite (has_flag_bit f 0) in Hp by lia.
      assert (W4 : f_type f = 4 -> wf f = WFrame 4 (f_flags f) (f_stream f) (f_payload f))
        by (unfold wf; now intros ->).
      destruct Hp as [H|[H|[H|[H|[H|[H|H]]]]]].
      + destruct H as (Et & Ef & _ & -> & -> & -> & ->). apply SAME; auto. rewrite W4 by auto.
        now apply answered_settings_ack.
      + destruct H as (Et & Ef & _ & -> & -> & -> & -> & Hmod). rewrite W4 by auto.
        exists txs, (outs ++ [WFrame 4 1 0 []]).
        split; [assumption|]. split; [now apply answered_settings|].
        split. { intros Hs. rewrite queued_app. apply frames_octets_app; auto. cbn [queued flat_map].
                 rewrite app_nil_r. apply frames_octets_one, ack_frame. }
        split; [rewrite requests_app; cbn [requests flat_map]; now rewrite app_nil_r|].
        split; [rewrite logged_app; cbn [logged flat_map]; now rewrite app_nil_r|].
        repeat (split; [assumption|]). rewrite requests_app. cbn [requests flat_map]. now rewrite app_nil_r.
      + destruct H as (_ & _ & ? & _). easy.
      + destruct H as (Et & _ & -> & -> & -> & -> & _). apply SAME; auto.
        apply answered_other; auto; cbn [wf w_type]; lia.
      + destruct H as (_ & ? & _). easy.
      + destruct H as (E1 & E4 & E7 & E8 & _ & -> & -> & -> & ->). apply SAME; auto.
        apply answered_other; auto; cbn [wf w_type]; lia.
      + destruct H as (Et & block & Eb & [H|[(er & H)|(hdrs & resp & evr & Ed & Er & H)]]).
        { decompose [and] H. congruence. }
        { decompose [and] H. congruence. }
        destruct H as [(_ & ? & _)|(rs & -> & [(_ & ? & _)|(block' & data & Ee & Ew & _ & ->)])]; try easy.
        destruct (process_request_served _ _ _ _ _ _ Er H9) as (Hserved & Hq & Hl & Hhand).
        destruct (response_frames_spec (f_stream f) block' (rs_body rs) data Hst Ew) as (ofs & Hof & Hoo).
        set (tx := Tx block hdrs (requests evr) rs block').
        assert (Hwf : wf f = WFrame 1 (f_flags f) (f_stream f) (f_payload f)) by (unfold wf; now rewrite Et).
        rewrite Hwf. exists (txs ++ [tx]), (outs ++ ofs).
        split; [assumption|].
        split. { apply answered_headers; auto. cbn [tx tx_block]. now apply headers_block_payload. }
        split. { intros Hs. apply Forall_app in Hs as [Hs1 Hs2]. inversion Hs2; subst.
                 rewrite !queued_app, Hq. apply frames_octets_app; auto. cbn [queued flat_map Datatypes.app].
                 rewrite app_nil_r. apply Hoo. auto. }
        rewrite !map_app. cbn [map tx tx_block tx_fields tx_app tx_sent tx_sent_block].
        split. { rewrite !requests_app, concat_app, H4. cbn [requests flat_map concat]. now rewrite !app_nil_r. }
        split. { rewrite !logged_app, Hl, H5. reflexivity. }
        split. { eapply decode_seq_snoc; eauto. }
        split. { eapply encode_seq_snoc; eauto. }
        split. { apply Forall_app. split; auto. constructor; [|constructor]. eapply headers_block_bytes; eauto. }
        split. { intros Ha. apply Forall_app. split; auto. constructor; [|constructor]. eapply process_request_ok; eauto. }
        rewrite !requests_app. cbn [requests flat_map]. rewrite app_nil_r. exact Hhand.
  Qed.
End Answered.
