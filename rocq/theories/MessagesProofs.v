(** Proofs about Messages.v. *)
From Verif Require Import Base BaseLemmas StaticTable IntCodec Huffman DynTable HpackDec HpackEnc Frames FramesProofs Http Conn SpecFrames SpecConn ConnLemmas ConnRule ConnBasic ConnTerm
  ConnRun FileSys Files Router App AccessLog Messages SpecMessages.

(** ** Header blocks: one message if and only if the block is refused *)
Definition fits {A} (ms : list message) (r : expected frame_error A) : Prop :=
  match r with Val _ => ms = [] | Error _ => exists m, ms = [m] /\ m_level m = LErr end.
Lemma fits_err A t e : fits [err t] (@Error frame_error A e).
Proof. exists (err t). auto. Qed.

Lemma padding_fits bits : forall pos, if forallb (fun b => b) bits then padding_messages bits pos = [] else exists m, padding_messages bits pos = [m] /\ m_level m = LErr.
Proof.
  induction bits as [|[] bits IH]; intros pos; cbn; [reflexivity|apply IH|]. eexists. split; reflexivity.
Qed.
Lemma huffman_fits root bits : forall cur acc pos r, huffman_loop root cur bits acc = Ret r ->
  match r with Val _ => huffman_messages root cur bits pos = [] | Error _ => exists m, huffman_messages root cur bits pos = [m] /\ m_level m = LErr end.
Proof.
  induction bits as [|b bits IH]; intros cur acc pos r E; cbn [huffman_loop huffman_messages] in *.
  - injection E as <-. reflexivity.
  - destruct cur as [|l r0 s]; [discriminate|]. destruct (if b then r0 else l) as [|l1 r1 [s1|]].
    + pose proof (padding_fits bits (pos + 1)) as H. destruct (forallb _ bits); injection E as <-; exact H.
    + now apply IH with (1 := E).
    + now apply IH with (1 := E).
Qed.

Section Decoder.
  Variable T : tree.
  Lemma limit_fits A (s : A) n : fits (limit_messages n) (if string_length_within_limit n then Val s else Error ProtocolError).
  Proof. unfold limit_messages. destruct (string_length_within_limit n); [reflexivity|apply fits_err]. Qed.
  Lemma read_string_fits h n data r : read_string T h n data = Ret r -> fits (read_string_messages T h n data) r.
  Proof.
    unfold read_string, read_string_messages. destruct h.
    - unfold decode_huffman_string, huffman_decode. destruct (huffman_loop T T (bit_reader data) []) as [x| | |] eqn:E; cbn [obind]; try discriminate.
      pose proof (huffman_fits _ _ _ _ 0 _ E) as H. destruct x as [s|e].
      + rewrite H. cbn [List.app]. pose proof (limit_fits _ s (lenZ s)) as L. destruct (string_length_within_limit (lenZ s)); intros [= <-]; exact L.
      + intros [= <-]. rewrite app_nil_r. exact H.
    - pose proof (limit_fits _ data n) as L. destruct (string_length_within_limit n); intros [= <-]; exact L.
  Qed.
  Lemma read_fits r res r' : read_length_and_string T r = Ret (res, r') -> fits (read_length_and_string_messages T r) res.
  Proof.
    unfold read_length_and_string, read_length_and_string_messages. destruct (peek_byte r); [|intros [= <- _]; apply fits_err].
    destruct (int_decode 7 r) as [[n|e] r1]; [|intros [= <- _]; apply fits_err].
    destruct (read_bytes r1 n) as [[data r2]|]; [|intros [= <- _]; apply fits_err].
    destruct (read_string T _ n data) as [x| | |] eqn:E; cbn [obind]; try discriminate. intros [= <- _]. now apply read_string_fits.
  Qed.
  Lemma header_fits t i h : read_indexed_header t i = Ret h -> fits (lookup_messages (str "header") t i) h.
  Proof.
    unfold read_indexed_header, lookup_messages. cbv zeta. destruct (_ <? _).
    - destruct (nth_error _ _); [|discriminate]. intros [= <-]. reflexivity.
    - destruct (_ >=? _); [intros [= <-]; apply fits_err|]. destruct (dt_get t _); cbn [obind]; try discriminate. intros [= <-]. reflexivity.
  Qed.
  Lemma name_fits t i h : read_indexed_header_name t i = Ret h -> fits (lookup_messages (str "header name") t i) h.
  Proof.
    unfold read_indexed_header_name, lookup_messages. cbv zeta. destruct (_ <? _).
    - destruct (nth_error _ _); [|discriminate]. intros [= <-]. reflexivity.
    - destruct (_ >=? _); [intros [= <-]; apply fits_err|]. destruct (dt_get t _); cbn [obind]; try discriminate. intros [= <-]. reflexivity.
  Qed.
  Lemma indexed_fits t r res r' : decode_indexed_field t r = Ret (res, r') -> fits (decode_indexed_field_messages t r) res.
  Proof.
    unfold decode_indexed_field, decode_indexed_field_messages. destruct (int_decode 7 r) as [[i|e] r1]; [|discriminate].
    destruct (i <? 1); [intros [= <- _]; apply fits_err|]. destruct (read_indexed_header t i) eqn:E; cbn [obind]; try discriminate.
    intros [= <- _]. now apply header_fits.
  Qed.
  Lemma literal_fits n t r res r' : decode_literal_field T n t r = Ret (res, r') -> fits (decode_literal_field_messages T n t r) res.
  Proof.
    unfold decode_literal_field, decode_literal_field_messages. destruct (int_decode n r) as [[i|e] r1]; [|discriminate].
    assert (V : forall r2 (nm : bytes), (let! (value, r3) := read_length_and_string T r2 in
        match value with Error _ => Ret (Error ProtocolError, r3) | Val v => Ret (Val (Hdr nm v), r3) end) = Ret (res, r') ->
        fits (read_length_and_string_messages T r2) res).
    { intros r2 nm. destruct (read_length_and_string T r2) as [[v r3]| | |] eqn:E; cbn [obind]; try discriminate.
      pose proof (read_fits _ _ _ E) as H. destruct v; intros [= <- _]; exact H. }
    destruct (i =? 0).
    - destruct (read_length_and_string T r1) as [[nm r2]| | |] eqn:E; cbn [obind]; try discriminate.
      pose proof (read_fits _ _ _ E) as H. destruct nm as [nm|e].
      + rewrite H. apply V.
      + intros [= <- _]. rewrite app_nil_r. exact H.
    - destruct (read_indexed_header_name t i) as [nm| | |] eqn:E; cbn [obind]; try discriminate.
      pose proof (name_fits _ _ _ E) as H. destruct nm as [nm|e].
      + rewrite H. apply V.
      + intros [= <- _]. rewrite app_nil_r. exact H.
  Qed.
  Lemma size_fits t r res r' : decode_size_update t r = Ret (res, r') -> fits (decode_size_update_messages r) res.
  Proof.
    unfold decode_size_update, decode_size_update_messages. destruct (int_decode 5 r) as [[i|e] r1]; [|intros [= <- _]; apply fits_err].
    destruct (i >? _); [intros [= <- _]; apply fits_err|]. destruct (dt_set_max t i); cbn [obind]; try discriminate. intros [= <- _]. reflexivity.
  Qed.
  Lemma loop_fits fuel : forall t r hs res t', decode_loop T fuel t r hs = Ret (res, t') -> fits (decode_loop_messages T fuel t r) res.
  Proof.
    induction fuel as [|f IH]; intros t r hs res t' E; destruct r as [|b r]; cbn [decode_loop decode_loop_messages] in *; try (injection E as <- _; reflexivity); try discriminate.
    destruct (from_byte b).
    - destruct (decode_indexed_field t (b :: r)) as [[x r1]| | |] eqn:D; cbn [obind] in E; try discriminate. pose proof (indexed_fits _ _ _ _ D) as H. destruct x.
      + rewrite H. eapply IH; eauto.
      + injection E as <- _. rewrite app_nil_r. exact H.
    - destruct (decode_literal_field T 6 t (b :: r)) as [[x r1]| | |] eqn:D; cbn [obind] in E; try discriminate. pose proof (literal_fits _ _ _ _ _ D) as H. destruct x as [h|].
      + rewrite H. destruct (dt_insert t h) eqn:I; cbn [obind] in E; try discriminate. eapply IH; eauto.
      + injection E as <- _. rewrite app_nil_r. exact H.
    - destruct (decode_size_update t (b :: r)) as [[x r1]| | |] eqn:D; cbn [obind] in E; try discriminate. pose proof (size_fits _ _ _ _ D) as H. destruct x.
      + rewrite H. eapply IH; eauto.
      + injection E as <- _. rewrite app_nil_r. exact H.
    - destruct (decode_literal_field T 4 t (b :: r)) as [[x r1]| | |] eqn:D; cbn [obind] in E; try discriminate. pose proof (literal_fits _ _ _ _ _ D) as H. destruct x as [h|].
      + rewrite H. eapply IH; eauto.
      + injection E as <- _. rewrite app_nil_r. exact H.
    - destruct (decode_literal_field T 4 t (b :: r)) as [[x r1]| | |] eqn:D; cbn [obind] in E; try discriminate. pose proof (literal_fits _ _ _ _ _ D) as H. destruct x as [h|].
      + rewrite H. eapply IH; eauto.
      + injection E as <- _. rewrite app_nil_r. exact H.
    - injection E as <- _. apply fits_err.
  Qed.
  Lemma decode_fits t data res t' : hpack_decode T t data = Ret (res, t') -> fits (decode_messages T t data) res.
  Proof. apply loop_fits. Qed.
End Decoder.

(** ** Texts are printable *)
Definition clean (ms : list message) : Prop := Forall (fun m => printable (m_text m)) ms.
Lemma clean_app a b : clean (a ++ b) <-> clean a /\ clean b.
Proof. apply Forall_app. Qed.
Lemma printable_app a b : printable a -> printable b -> printable (a ++ b).
Proof. intros. now apply Forall_app. Qed.
Lemma printable_b s : forallb (fun c => (32 <=? c) && (c <=? 126)) s = true -> printable s.
Proof. intros H. apply Forall_forall. intros c Hc. rewrite forallb_forall in H. specialize (H _ Hc). lia. Qed.
Lemma digits_printable fuel : forall n acc, printable acc -> printable (to_digits fuel n acc).
Proof.
  induction fuel as [|f IH]; intros n acc H; cbn [to_digits].
  - exact H.
  - assert (printable (48 + n mod 10 :: acc)) by (constructor; auto; lia). destruct (n <? 10); auto.
Qed.
Lemma number_printable n : printable (to_string n).
Proof. apply digits_printable. constructor. Qed.
Ltac is_clean := first [now constructor | constructor; [cbn [m_text err warn info]; repeat (apply printable_app || apply number_printable || (apply printable_b; reflexivity) || assumption)|is_clean] | idtac].
(** The messages of the decoder: printable, all of them errors. *)
Definition errors (ms : list message) : Prop := Forall (fun m => printable (m_text m) /\ m_level m = LErr) ms.
Lemma errors_app a b : errors (a ++ b) <-> errors a /\ errors b.
Proof. apply Forall_app. Qed.
Lemma errors_clean ms : errors ms -> clean ms.
Proof. apply Forall_impl. intuition. Qed.
Ltac is_errors := first [now constructor | constructor; [split; [|reflexivity]; cbn [m_text err warn info]; repeat (apply printable_app || apply number_printable || (apply printable_b; reflexivity) || assumption)|is_errors] | idtac].
Lemma clean_padding bits : forall pos, errors (padding_messages bits pos).
Proof. induction bits as [|[] bits IH]; intros pos; cbn [padding_messages]; auto; is_errors. Qed.
Lemma clean_huffman root bits : forall cur pos, errors (huffman_messages root cur bits pos).
Proof.
  induction bits as [|b bits IH]; intros cur pos; cbn [huffman_messages]; [constructor|].
  destruct cur as [|l r0 s]; [constructor|]. destruct (if b then r0 else l) as [|l1 r1 [s1|]]; auto using clean_padding.
Qed.
Section CleanDecoder.
  Variable T : tree.
  Lemma clean_limit n : errors (limit_messages n).
  Proof. unfold limit_messages. destruct (string_length_within_limit n); is_errors. Qed.
  Lemma clean_string h n data : errors (read_string_messages T h n data).
  Proof.
    unfold read_string_messages. destruct h; [|apply clean_limit]. apply errors_app. split; [apply clean_huffman|].
    destruct (huffman_decode T data) as [[s|e]| | |]; auto using clean_limit; is_errors.
  Qed.
  Lemma clean_read r : errors (read_length_and_string_messages T r).
  Proof.
    unfold read_length_and_string_messages. destruct (peek_byte r); [|is_errors]. destruct (int_decode 7 r) as [[n|e] r1]; [|is_errors].
    destruct (read_bytes r1 n) as [[data r2]|]; [apply clean_string|is_errors].
  Qed.
  Lemma clean_lookup what t i : printable what -> errors (lookup_messages what t i).
  Proof. intros H. unfold lookup_messages. cbv zeta. destruct (_ <? _); [constructor|]. destruct (_ >=? _); is_errors. Qed.
  Lemma clean_indexed t r : errors (decode_indexed_field_messages t r).
  Proof.
    unfold decode_indexed_field_messages. destruct (int_decode 7 r) as [[i|e] r1]; [|is_errors].
    destruct (i <? 1); [is_errors|]. apply clean_lookup, printable_b. reflexivity.
  Qed.
  Lemma clean_literal n t r : errors (decode_literal_field_messages T n t r).
  Proof.
    unfold decode_literal_field_messages. destruct (int_decode n r) as [[i|e] r1]; [|is_errors].
    destruct (i =? 0); apply errors_app; split; auto using clean_read.
    - destruct (read_length_and_string T r1) as [[[v|e] r2]| | |]; auto using clean_read; constructor.
    - apply clean_lookup, printable_b. reflexivity.
    - destruct (read_indexed_header_name t i) as [[v|e]| | |]; auto using clean_read; constructor.
  Qed.
  Lemma clean_size r : errors (decode_size_update_messages r).
  Proof. unfold decode_size_update_messages. destruct (int_decode 5 r) as [[i|e] r1]; [destruct (i >? _)|]; is_errors. Qed.
  Lemma clean_loop fuel : forall t r, errors (decode_loop_messages T fuel t r).
  Proof.
    induction fuel as [|f IH]; intros t r; destruct r as [|b r]; cbn [decode_loop_messages]; try now constructor.
    destruct (from_byte b); try (apply errors_app; split).
    - apply clean_indexed.
    - destruct (decode_indexed_field t (b :: r)) as [[[x|e] r1]| | |]; auto; constructor.
    - apply clean_literal.
    - destruct (decode_literal_field T 6 t (b :: r)) as [[[x|e] r1]| | |]; auto; try constructor. destruct (dt_insert t x); auto; constructor.
    - apply clean_size.
    - destruct (decode_size_update t (b :: r)) as [[[x|e] r1]| | |]; auto; constructor.
    - apply clean_literal.
    - destruct (decode_literal_field T 4 t (b :: r)) as [[[x|e] r1]| | |]; auto; constructor.
    - apply clean_literal.
    - destruct (decode_literal_field T 4 t (b :: r)) as [[[x|e] r1]| | |]; auto; constructor.
    - is_errors.
  Qed.
End CleanDecoder.
Lemma clean_fill rd : forall c, clean (fill_messages rd c).
Proof.
  induction rd as [|[now [o|e]] rd IH]; intros c; cbn [fill_messages]; destruct (_ >=? _); auto; try now constructor.
  destruct e; is_clean.
Qed.
Lemma clean_flush wr c : clean (flush_messages wr c).
Proof. unfold flush_messages. destruct (c_wbuf c); [constructor|]. destruct wr as [|[now [n|k|e]] wr]; try destruct e; is_clean. Qed.

Section CleanConn.
  Variable W : Type.
  Variable app : request -> W -> W * app_answer.
  Variable cs : bool.
  Variable T : tree.
  Variable app_says : request -> W -> list message.
  Variable thrown : request -> W -> bytes.
  Variable unhandled : conn -> W -> bytes.
  Hypothesis Hsays : forall rq w, clean (app_says rq w).
  Hypothesis Hthrown : forall rq w, printable (thrown rq w).
  Hypothesis Hunhandled : forall c w, printable (unhandled c w).
  Lemma clean_request hs w : clean (request_messages W app app_says thrown hs w).
  Proof.
    unfold request_messages. destruct (get_header hs (str ":path")) as [p|]; [|is_clean]. destruct (get_header hs (str ":method")) as [m|]; [|is_clean].
    apply clean_app. split; auto. pose proof (Hthrown (Request m p hs) w). destruct (snd _); is_clean.
  Qed.
  Lemma clean_sent r : clean (sent_messages r).
  Proof. unfold sent_messages. destruct (rs_body r); is_clean. Qed.
  Lemma clean_frame f d e w : clean (frame_messages W app cs T app_says thrown f d e w).
  Proof.
    unfold frame_messages. destruct (_ =? _).
    { destruct (has_flag f 1); [constructor|]. destruct (negb _); is_clean. }
    destruct (_ =? _); [|constructor]. destruct (headers_block f); try constructor. apply clean_app. split; [apply errors_clean, clean_loop|].
    destruct (hpack_decode T d a) as [[[hs|er] d1]| | |]; try constructor. apply clean_app. split; [apply clean_request|].
    destruct (process_request W app hs w) as [[w1 [rs|]] ev]; [|constructor]. destruct (hpack_encode cs e _); auto using clean_sent; constructor.
  Qed.
  Lemma clean_try c w : clean (try_read_messages W app cs T app_says thrown c w).
  Proof.
    unfold try_read_messages. destruct (_ <? _); [constructor|]. destruct (fh_parse _); try constructor. destruct (_ >? _); [is_clean|].
    destruct (_ <? _); [constructor|]. apply clean_frame.
  Qed.
  Lemma clean_dispatch c w : clean (dispatch_messages W app cs T app_says thrown c w).
  Proof.
    unfold dispatch_messages. destruct (c_state c) eqn:Es; try constructor; auto using clean_try.
    - apply clean_app. split.
      + unfold preface_messages. destruct (read_preface c) as [[[] c1] ev]; is_clean.
      + destruct (read_preface c) as [[[] c1] ev]; auto using clean_try; constructor.
    - apply printable_b. reflexivity.
    - unfold close_messages. rewrite Es. constructor.
  Qed.
  Lemma clean_internal fuel : forall s c w, clean (internal_messages W app cs T app_says thrown unhandled fuel s c w).
  Proof.
    induction fuel as [|f IH]; intros s c w; cbn [internal_messages]; [constructor|].
    destruct (match c_state c with AwaitingHandshake => _ | _ => _ end) as [[[r c0] ev0] hs']. destruct r; [constructor|].
    destruct (flush_write_buffer (sc_wr s) c0) as [[c1 ev1] wr']. apply clean_app. split; [apply clean_flush|].
    destruct (c_wbuf c1); [|constructor]. destruct (fill_read_buffer (sc_rd s) c1) as [[c2 ev2] rd'].
    apply clean_app. split; [apply clean_fill|]. apply clean_app. split; [apply clean_dispatch|].
    destruct (Conn.dispatch W app cs T c2 w) as [[[[[] c3] ev3] w3]| | |]; auto; try constructor; [|constructor].
    cbn [m_text]. apply printable_app; auto. apply printable_b. reflexivity.
  Qed.
  Lemma clean_narrated others t0 w0 A r c tr w ms :
    narrated W app cs T app_says thrown unhandled others t0 w0 A r c tr w ms -> clean ms.
  Proof. induction 1; auto; [constructor|]. apply clean_app. split; auto. apply clean_internal. Qed.
End CleanConn.
