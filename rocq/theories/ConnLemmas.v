(** Lemmas about the parts of the connection model. *)
From Verif Require Import Base BaseLemmas SpecFrames Huffman DynTable HpackDec HpackEnc Frames FramesProofs Http Conn
  SpecConn.

(** ** Chunks: the octets of one frame *)
Definition chunk (o : bytes) (f : frame) : Prop :=
  9 <= lenZ o /\ all_bytes o /\ fh_parse (firstn 9 o) = Ret (f_header f) /\ f_payload f = skipn 9 o /\
  lenZ o = 9 + fh_length (f_header f) /\ fh_length (f_header f) <= MAX_FRAME_SIZE.

(** Not enough octets for a frame; a frame that is too long. *)
Definition incomplete (r : bytes) : Prop :=
  lenZ r < 9 \/
  exists h, fh_parse (firstn 9 r) = Ret h /\ fh_length h <= MAX_FRAME_SIZE /\ lenZ r < 9 + fh_length h.
Definition oversized (r : bytes) : Prop :=
  9 <= lenZ r /\ exists h, fh_parse (firstn 9 r) = Ret h /\ MAX_FRAME_SIZE < fh_length h.

Lemma firstn_app_long {A} n (a b : list A) : (n <= length a)%nat -> firstn n (a ++ b) = firstn n a.
Proof.
  intros H. rewrite firstn_app. replace (n - length a)%nat with O by lia. now rewrite firstn_O, app_nil_r.
Qed.

Lemma all_bytes_firstn n l : all_bytes l -> all_bytes (firstn n l).
Proof.
  intros H. rewrite <- (firstn_skipn n l) in H. now apply all_bytes_app in H as [H _].
Qed.
Lemma all_bytes_skipn n l : all_bytes l -> all_bytes (skipn n l).
Proof.
  intros H. rewrite <- (firstn_skipn n l) in H. now apply all_bytes_app in H as [_ H].
Qed.

Lemma lenZ_firstn9 (r : bytes) : 9 <= lenZ r -> lenZ (firstn 9 r) = 9.
Proof. unfold lenZ. intros H. rewrite firstn_length. lia. Qed.

Lemma parse_total r : 9 <= lenZ r -> all_bytes r -> exists h, fh_parse (firstn 9 r) = Ret h /\
  0 <= fh_length h /\ is_byte (fh_type h) /\ is_byte (fh_flags h) /\
  frame_header_octets (fh_length h) (fh_type h) (fh_flags h) (fh_stream h) (firstn 9 r).
Proof.
  intros Hl Hb.
  destruct (fh_parse_total (firstn 9 r) (lenZ_firstn9 r Hl) (all_bytes_firstn 9 r Hb)) as (h & E & F).
  exists h. split; [exact E|].
  pose proof F as (l & s & rr & Eo & Hbb & Hl3 & El & _). rewrite Eo in Hbb.
  apply all_bytes_app in Hbb as [Hbl Hbb]. cbn [app] in Hbb. bytes_split.
  apply list_len3 in Hl3 as (a & b & c & ->). rewrite be3 in El. bytes_split. unfold is_byte in *.
  repeat split; auto; lia.
Qed.

Section Parts.
  Variable W : Type.
  Variable app : request -> W -> W * app_answer.
  Variable cs : bool.
  Variable T : tree.
  Notation process_frame := (process_frame W app cs T).
  Notation try_read_frame := (try_read_frame W app cs T).
  Notation dispatch := (dispatch W app cs T).

  Lemma try_read_frame_inv c w v c' ev w' : all_bytes (c_rbuf c) ->
    try_read_frame c w = Ret (v, c', ev, w') ->
    (v = Return WantRead /\ c' = c /\ ev = [] /\ w' = w /\ incomplete (c_rbuf c)) \/
    (v = Continue /\ c' = set_state StProtocolError c /\ ev = [] /\ w' = w /\ oversized (c_rbuf c)) \/
    (exists o rest f fe d e, c_rbuf c = o ++ rest /\ chunk o f /\
       process_frame f (c_dec c) (c_enc c) w = Ret (fe, d, e, w', ev) /\
       match fe with
       | FrameThrows => v = Exception /\ c' = Conn (c_state c) (c_rbuf c) (c_wbuf c ++ queued ev) d e (c_last c)
       | FrameDone => v = Continue /\ c' = Conn (c_state c) rest (c_wbuf c ++ queued ev) d e (c_last c)
       | FrameState s => v = Continue /\ c' = Conn s rest (c_wbuf c ++ queued ev) d e (c_last c)
       end).
  Proof.
    intros Hb. unfold Conn.try_read_frame.
    destruct (lenZ (c_rbuf c) <? 9) eqn:E9.
    { intros [= <- <- <- <-]. left. repeat split; auto. left. lia. }
    destruct (parse_total (c_rbuf c) ltac:(lia) Hb) as (h & E & Hlen & _).
    rewrite E. cbn [obind]. destruct (fh_length h >? MAX_FRAME_SIZE) eqn:Em.
    { intros [= <- <- <- <-]. right; left. repeat split; auto; [lia|]. exists h. split; auto. lia. }
    destruct (lenZ (c_rbuf c) <? 9 + fh_length h) eqn:Et.
    { intros [= <- <- <- <-]. left. repeat split; auto. right. exists h. repeat split; auto; lia. }
    set (n := Z.to_nat (fh_length h)).
    destruct (process_frame _ _ _ _) as [[[[[fe d] e] w1] ev1]| | |] eqn:Ep; try easy. cbn [obind].
    intros H. right; right.
    assert (Hdec : c_rbuf c = firstn (9 + n) (c_rbuf c) ++ skipn (9 + n) (c_rbuf c)) by now rewrite firstn_skipn.
    assert (Hlen' : length (firstn (9 + n) (c_rbuf c)) = (9 + n)%nat).
    { rewrite firstn_length. unfold lenZ in *. lia. }
    exists (firstn (9 + n) (c_rbuf c)), (skipn (9 + n) (c_rbuf c)),
      (Frame h (firstn n (skipn 9 (c_rbuf c)))), fe, d, e.
    split; [exact Hdec|].
    assert (Hdisc : skipn (Z.to_nat (9 + fh_length h)) (c_rbuf c) = skipn (9 + n) (c_rbuf c)).
    { f_equal. lia. }
    assert (w1 = w' /\ ev1 = ev) as [-> ->] by (destruct fe; now inversion H).
    split; [|split].
    - unfold chunk. cbn [f_header f_payload]. unfold lenZ in *. rewrite Hlen'. repeat split; try lia.
      + now apply all_bytes_firstn.
      + rewrite firstn_firstn. now replace (Init.Nat.min 9 (9 + n)) with 9%nat by lia.
      + now rewrite skipn_firstn_comm, Nat.add_comm, Nat.add_sub.
    - exact Ep.
    - unfold discard in H. cbn [c_state c_rbuf c_wbuf c_dec c_enc c_last] in H. rewrite Hdisc in H.
      clearbody n. destruct fe; inversion H; subst; split; auto.
  Qed.

  (** What process_frame can do. *)
  Lemma process_frame_inv f d e w fe d' e' w' ev : process_frame f d e w = Ret (fe, d', e', w', ev) ->
    (f_type f = 4 /\ has_flag f 1 = true /\ fe = FrameDone /\ d' = d /\ e' = e /\ w' = w /\ ev = []) \/
    (f_type f = 4 /\ has_flag f 1 = false /\ fe = FrameDone /\ d' = d /\ e' = e /\ w' = w /\
       ev = [EvQueue write_settings_ack] /\ lenZ (f_payload f) mod 6 = 0) \/
    (f_type f = 4 /\ has_flag f 1 = false /\ fe = FrameState StProtocolError /\ d' = d /\ e' = e /\ w' = w /\
       ev = [] /\ lenZ (f_payload f) mod 6 <> 0) \/
    (f_type f = 8 /\ fe = FrameDone /\ d' = d /\ e' = e /\ w' = w /\ ev = [] /\ 4 <= lenZ (f_payload f)) \/
    (f_type f = 7 /\ fe = FrameState ClientClosed /\ d' = d /\ e' = e /\ w' = w /\ ev = []) \/
    (f_type f <> 1 /\ f_type f <> 4 /\ f_type f <> 7 /\ f_type f <> 8 /\
       fe = FrameDone /\ d' = d /\ e' = e /\ w' = w /\ ev = []) \/
    (f_type f = 1 /\ exists block, headers_block f = Ret block /\
       ((hpack_decode T d block = Throw /\ fe = FrameThrows /\ d' = d /\ e' = e /\ w' = w /\ ev = []) \/
        (exists er, hpack_decode T d block = Ret (Error er, d') /\ fe = FrameState StProtocolError /\
           e' = e /\ w' = w /\ ev = []) \/
        (exists hdrs resp evr, hpack_decode T d block = Ret (Val hdrs, d') /\
           process_request W app hdrs w = (w', resp, evr) /\
           ((resp = None /\ fe = FrameThrows /\ e' = e /\ ev = evr) \/
            (exists rs, resp = Some rs /\
              ((hpack_encode cs e (rs_headers rs) = Throw /\ fe = FrameThrows /\ e' = e /\ ev = evr) \/
               (exists block' data, hpack_encode cs e (rs_headers rs) = Ret (block', e') /\
                  write_data_response (length (rs_body rs)) (f_stream f) (rs_body rs) = Ret data /\
                  fe = FrameDone /\
                  ev = evr ++ [EvQueue (write_headers_response (f_stream f) block'
                                 (match rs_body rs with [] => 5 | _ :: _ => 4 end)); EvQueue data;
                               EvLog hdrs (rs_status rs) (lenZ (rs_body rs))]))))))).
  Proof.
    unfold Conn.process_frame, FRAME_TYPE_SETTINGS, FRAME_TYPE_HEADERS, FRAME_TYPE_WINDOW_UPDATE, FRAME_TYPE_GOAWAY.
    destruct (f_type f =? 4) eqn:E4.
    { destruct (has_flag f 1) eqn:Ef.
      - intros [= <- <- <- <- <-]. left. repeat split; auto. lia.
      - unfold read_settings. destruct (lenZ (f_payload f) mod 6 =? 0) eqn:E6; cbn [negb obind].
        + destruct (read_entries _ _); cbn [obind]; try easy. intros [= <- <- <- <- <-].
          right; left. repeat split; auto; lia.
        + intros [= <- <- <- <- <-]. do 2 right; left. repeat split; auto; lia. }
    destruct (f_type f =? 1) eqn:E1.
    { intros H. do 6 right. split; [lia|].
      destruct (headers_block f) as [block| | |] eqn:Eb; cbn [obind] in H; try easy.
      exists block. split; [reflexivity|].
      destruct (hpack_decode T d block) as [[[hdrs|er] d1]| | |] eqn:Ed; try easy.
      2: { injection H as <- <- <- <- <-. right; left. exists er. auto. }
      2: { injection H as <- <- <- <- <-. left. repeat split; auto. }
      right; right. destruct (process_request W app hdrs w) as [[w1 resp] evr] eqn:Er.
      destruct resp as [rs|].
      2: { injection H as <- <- <- <- <-. exists hdrs, None, evr. split; [auto|]. split; [auto|]. left. auto. }
      destruct (hpack_encode cs e (rs_headers rs)) as [[block' e1]| | |] eqn:Ee; try easy.
      - destruct (write_data_response _ _ _) as [data| | |] eqn:Ew; cbn [obind] in H; try easy.
        injection H as <- <- <- <- <-. exists hdrs, (Some rs), evr. split; [auto|]. split; [auto|].
        right. exists rs. split; auto. right. exists block', data.
        split; [auto|]. split; [auto|]. split; [auto|].
        destruct (rs_body rs); reflexivity.
      - injection H as <- <- <- <- <-. exists hdrs, (Some rs), evr. split; [auto|]. split; [auto|].
        right. exists rs. split; [auto|]. left. auto. }
    destruct (f_type f =? 8) eqn:E8.
    { destruct (read_window_update f) as [x| | |] eqn:Er; cbn [obind]; try easy. intros [= <- <- <- <- <-].
      do 3 right; left. repeat split; auto; [lia|]. apply read_window_update_defined. now rewrite Er. }
    destruct (f_type f =? 7) eqn:E7.
    { intros [= <- <- <- <- <-]. do 4 right; left. repeat split; auto; lia. }
    intros [= <- <- <- <- <-]. do 5 right; left. repeat split; auto; lia.
  Qed.

  Lemma process_request_inv hs w w' resp ev : process_request W app hs w = (w', resp, ev) ->
    ((get_header hs (str ":path") = None \/ get_header hs (str ":method") = None) /\
       w' = w /\ resp = Some (Response 400 [] []) /\ ev = []) \/
    (exists p m a, get_header hs (str ":path") = Some p /\ get_header hs (str ":method") = Some m /\
       app (Request m p hs) w = (w', a) /\
       ((a = Escapes /\ resp = None /\ ev = [EvRequest (Request m p hs) None]) \/
        (exists r, (a = Answers r \/ a = Fails /\ r = Response 500 [] []) /\
           resp = Some (complete_response r) /\ ev = [EvRequest (Request m p hs) (Some r)]))).
  Proof.
    unfold process_request.
    destruct (get_header hs (str ":path")) as [p|]; [|intros [= <- <- <-]; left; auto].
    destruct (get_header hs (str ":method")) as [m|]; [|intros [= <- <- <-]; left; auto].
    destruct (app (Request m p hs) w) as [w1 a] eqn:Ea. intros H. right. exists p, m, a.
    destruct a as [r| |]; injection H as <- <- <-; repeat split; auto; right; eexists; eauto.
  Qed.

  Lemma dispatch_inv c w v c' ev w' : all_bytes (c_rbuf c) -> c_state c <> AwaitingHandshake ->
    dispatch c w = Ret (v, c', ev, w') ->
    (c_state c = AwaitingPreface /\ lenZ (c_rbuf c) < 24 /\ v = Return WantRead /\ c' = c /\ ev = [] /\ w' = w) \/
    (c_state c = AwaitingPreface /\ 24 <= lenZ (c_rbuf c) /\ firstn 24 (c_rbuf c) <> CLIENT_PREFACE /\
       v = Return DiscardConnection /\ c' = c /\ ev = [] /\ w' = w) \/
    (exists rest ev2, c_state c = AwaitingPreface /\ c_rbuf c = CLIENT_PREFACE ++ rest /\
       ev = EvQueue write_settings :: ev2 /\
       try_read_frame (Conn AwaitingFrame rest (c_wbuf c ++ write_settings) (c_dec c) (c_enc c) (c_last c)) w =
         Ret (v, c', ev2, w')) \/
    (c_state c = AwaitingFrame /\ try_read_frame c w = Ret (v, c', ev, w')) \/
    (c_state c = Closing /\ v = Return DiscardConnection /\ c' = set_state ClientClosed c /\ ev = [EvShutdown] /\ w' = w) \/
    (c_state c = StProtocolError /\ v = Return DiscardConnection /\
       c' = set_state Closing (enqueue (write_goaway 1 1) c) /\ ev = [EvQueue (write_goaway 1 1)] /\ w' = w) \/
    (c_state c = ClientClosed /\ v = Return DiscardConnection /\ c' = c /\ ev = [] /\ w' = w).
  Proof.
    intros Hb Hs. unfold Conn.dispatch. destruct (c_state c) eqn:Es; try congruence.
    - unfold read_preface. change (lenZ CLIENT_PREFACE) with 24. change (length CLIENT_PREFACE) with 24%nat.
      destruct (lenZ (c_rbuf c) <? 24) eqn:E24.
      { intros [= <- <- <- <-]. left. repeat split; auto; lia. }
      destruct (bytes_eqb (firstn 24 (c_rbuf c)) CLIENT_PREFACE) eqn:Ep.
      + apply bytes_eqb_eq in Ep.
        destruct (try_read_frame _ _) as [[[[v2 c2] ev2] w2]| | |] eqn:Et; cbn [obind]; try easy.
        intros [= <- <- <- <-]. do 2 right; left. exists (skipn 24 (c_rbuf c)), ev2.
        repeat split; auto. rewrite <- Ep. now rewrite firstn_skipn.
      + intros [= <- <- <- <-]. right; left. apply bytes_eqb_neq in Ep. repeat split; auto; lia.
    - intros H. do 3 right; left. auto.
    - intros [= <- <- <- <-]. do 4 right; left. auto.
    - unfold close. rewrite Es. intros [= <- <- <- <-]. do 5 right; left. auto.
    - intros [= <- <- <- <-]. do 6 right. auto.
  Qed.
End Parts.

(** ** Parsing a stream into chunks is unique *)
Lemma chunk_not_incomplete o f r : chunk o f -> ~ incomplete (o ++ r).
Proof.
  intros (H9 & _ & Ep & _ & El & Em) [H|(h & E & Hm & Hl)].
  - rewrite lenZ_app in H. pose proof (lenZ_nonneg r). lia.
  - rewrite firstn_app_long in E by (unfold lenZ in H9; lia). rewrite Ep in E. injection E as <-.
    rewrite lenZ_app in Hl. pose proof (lenZ_nonneg r). lia.
Qed.

Lemma chunk_not_oversized o f r : chunk o f -> ~ oversized (o ++ r).
Proof.
  intros (H9 & _ & Ep & _ & El & Em) (_ & h & E & Hm).
  rewrite firstn_app_long in E by (unfold lenZ in H9; lia). rewrite Ep in E. injection E as <-. lia.
Qed.

Lemma chunk_inj o f r o' f' r' : chunk o f -> chunk o' f' -> o ++ r = o' ++ r' -> o = o' /\ f = f' /\ r = r'.
Proof.
  intros (H9 & _ & Ep & Hp & El & Em) (H9' & _ & Ep' & Hp' & El' & Em') E.
  assert (firstn 9 o = firstn 9 o') as E9.
  { rewrite <- (firstn_app_long 9 o r), <- (firstn_app_long 9 o' r') by (unfold lenZ in *; lia). now rewrite E. }
  rewrite E9, Ep' in Ep. injection Ep as Eh. rewrite Eh in El'.
  destruct (app_inj_len o o' r r') as [-> ->]; [unfold lenZ in *; lia|exact E|].
  repeat split. destruct f, f'. cbn in *. congruence.
Qed.

Lemma chunks_prefix os : forall fs r os' fs' r', Forall2 chunk os fs -> Forall2 chunk os' fs' ->
  concat os ++ r = concat os' ++ r' ->
  (exists os2 fs2, os' = os ++ os2 /\ fs' = fs ++ fs2 /\ Forall2 chunk os2 fs2 /\ r = concat os2 ++ r') \/
  (exists o2 os2 f2 fs2, os = os' ++ o2 :: os2 /\ fs = fs' ++ f2 :: fs2 /\ chunk o2 f2 /\
     r' = o2 ++ concat os2 ++ r).
Proof.
  induction os as [|o os IH]; intros fs r os' fs' r' H H' E; inversion H as [|? f ? fs0]; subst.
  - left. exists os', fs'. repeat split; auto.
  - inversion H' as [|o' f' os0 fs0']; subst.
    + right. exists o, os, f, fs0. cbn [concat app] in *. rewrite <- app_assoc in E.
      split; [reflexivity|]. split; [reflexivity|]. split; [assumption|]. now symmetry.
    + cbn [concat] in E. rewrite <- !app_assoc in E.
      destruct (chunk_inj o f _ o' f' _ ltac:(assumption) ltac:(assumption) E) as (-> & -> & E').
      destruct (IH fs0 r os0 fs0' r' ltac:(assumption) ltac:(assumption) E')
        as [(os2 & fs2 & -> & -> & Hc & ->)|(o2 & os2 & f2 & fs2 & -> & -> & Hc & ->)].
      * left. exists os2, fs2. auto.
      * right. exists o2, os2, f2, fs2. auto.
Qed.

(** ** Projections of traces *)
Lemma received_app a b : received (a ++ b) = received a ++ received b.
Proof. apply flat_map_app. Qed.
Lemma queued_app a b : queued (a ++ b) = queued a ++ queued b.
Proof. apply flat_map_app. Qed.
Lemma delivered_app a b : delivered (a ++ b) = delivered a ++ delivered b.
Proof. apply flat_map_app. Qed.
Lemma requests_app a b : requests (a ++ b) = requests a ++ requests b.
Proof. apply flat_map_app. Qed.
Lemma logged_app a b : logged (a ++ b) = logged a ++ logged b.
Proof. apply flat_map_app. Qed.

(** Events of process_frame: nothing read or written. *)
Definition quiet (ev : trace) : Prop :=
  Forall (fun e => match e with EvQueue _ | EvRequest _ _ | EvLog _ _ _ => True | _ => False end) ev.
Lemma quiet_received ev : quiet ev -> received ev = [] /\ delivered ev = [].
Proof. induction 1 as [|e ev H _ [IH1 IH2]]; [easy|]. destruct e; try easy. Qed.
