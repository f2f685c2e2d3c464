(** Proofs about ConnTrace.v. *)
From Verif Require Import Base BaseLemmas StaticTable IntCodec Huffman DynTable HpackDec HpackEnc Frames Http Conn ConnLemmas AccessLog Messages MessagesProofs DebugMessages SpecDebug DebugProofs HpackTrace SpecHpackTrace HpackTraceProofs ConnTrace SpecConnTrace.

(** ** At level debug *)
Lemma deb_debug t l : at_debug (debug t :: l) = debug t :: at_debug l.
Proof. reflexivity. Qed.
Lemma deb_err t l : at_debug (err t :: l) = err t :: at_debug l.
Proof. reflexivity. Qed.
Lemma deb_warn t l : at_debug (warn t :: l) = warn t :: at_debug l.
Proof. reflexivity. Qed.
Lemma deb_trace t l : at_debug (trace t :: l) = at_debug l.
Proof. reflexivity. Qed.
Lemma deb_entries hs : forall pos, at_debug (entries_debug pos hs) = entries_debug pos hs.
Proof. induction hs as [|h hs IH]; intros pos; [reflexivity|]. cbn [entries_debug]. now rewrite deb_debug, IH. Qed.
Lemma deb_tables d e : at_debug (tables_debug d e) = tables_debug d e.
Proof. unfold tables_debug, contents_debug. cbn [Datatypes.app]. rewrite !deb_debug, at_debug_app, deb_entries. cbn [Datatypes.app]. now rewrite !deb_debug, deb_entries. Qed.
Lemma deb_update s s' : at_debug (update_debug s s') = update_debug s s'.
Proof. unfold update_debug. now destruct (same_state s s'). Qed.
Lemma deb_fields hs : at_debug (fields_debug hs) = fields_debug hs.
Proof. induction hs as [|h hs IH]; [reflexivity|]. unfold fields_debug in *. cbn [map]. now rewrite deb_debug, IH. Qed.
Lemma deb_encode cs hs : forall t, at_debug (encode_debug cs t hs) = encode_debug cs t hs.
Proof.
  induction hs as [|h hs IH]; intros t; [reflexivity|]. cbn [encode_debug]. destruct (encode_header cs t h) as [[? t1]| | |]; try reflexivity.
  rewrite at_debug_app, IH. f_equal. destruct (find_index _ _); [reflexivity|]. destruct (dt_find t h); [reflexivity|apply at_debug_insert].
Qed.
Lemma deb_sent r : at_debug (sent_messages r) = sent_messages r.
Proof. apply loud_at_debug. apply louder_sent. Qed.
Lemma deb_data fuel : forall b, at_debug (data_trace fuel b) = [].
Proof. induction fuel as [|n IH]; intros [|x b]; try reflexivity. cbn [data_trace]. cbv zeta. rewrite deb_trace. apply IH. Qed.
Lemma deb_fill rd : forall c, at_debug (fill_trace rd c) = fill_debug rd c.
Proof.
  induction rd as [|[now [o|e]] rd IH]; intros c; cbn [fill_trace fill_debug]; (destruct (_ >=? _); [reflexivity|]); try reflexivity.
  - cbv zeta. rewrite deb_trace. apply IH.
  - destruct e; try reflexivity; rewrite ?deb_debug, ?deb_err, deb_update; reflexivity.
Qed.
Lemma deb_flush_debug wr c : at_debug (flush_debug wr c) = flush_debug wr c.
Proof.
  unfold flush_debug. rewrite at_debug_app. f_equal.
  - apply loud_at_debug. unfold flush_messages, loud. destruct (c_wbuf c); [reflexivity|]. destruct wr as [|[? [| |[]]] ?]; reflexivity.
  - destruct (flush_messages wr c); [reflexivity|apply deb_update].
Qed.
Lemma deb_flush wr c : at_debug (flush_trace wr c) = flush_debug wr c.
Proof.
  unfold flush_trace. destruct (c_wbuf c) eqn:E.
  - unfold flush_debug, flush_messages. now rewrite E.
  - destruct wr as [|[? [n|k|[]]] wr]; try apply deb_flush_debug; unfold flush_debug, flush_messages; now rewrite E.
Qed.
Lemma deb_preface c : at_debug (preface_trace c) = preface_debug c.
Proof.
  unfold preface_trace, preface_debug, preface_messages, read_preface. destruct (_ <? _); [reflexivity|]. destruct (bytes_eqb _ _); [|reflexivity].
  rewrite at_debug_app, deb_debug, deb_update. reflexivity.
Qed.
Lemma deb_close c : at_debug (close_debug c) = close_debug c.
Proof. unfold close_debug, close_messages. destruct (c_state c); reflexivity. Qed.

Section Debug.
  Variable W : Type.
  Variable app : request -> W -> W * app_answer.
  Variable cs : bool.
  Variable T : tree.
  Variable says : request -> W -> list message.
  Variable thrown : request -> W -> bytes.
  Variable unhandled : conn -> W -> bytes.
  Notation dsays := (fun rq w => at_debug (says rq w)).

  Lemma deb_request hs w : at_debug (request_messages W app says thrown hs w) = request_messages W app dsays thrown hs w.
  Proof.
    unfold request_messages. destruct (get_header hs (str ":path")); [|reflexivity]. destruct (get_header hs (str ":method")); [|reflexivity].
    rewrite at_debug_app. f_equal. destruct (snd _); reflexivity.
  Qed.
  Lemma deb_frame s f d e w : at_debug (frame_trace W app cs T says thrown s f d e w) = frame_debug W app cs T dsays thrown s f d e w.
  Proof.
    unfold frame_trace. destruct (f_type f =? FRAME_TYPE_HEADERS) eqn:Eh.
    - unfold frame_debug. replace (f_type f =? FRAME_TYPE_SETTINGS) with false by (unfold FRAME_TYPE_HEADERS, FRAME_TYPE_SETTINGS in *; lia). rewrite Eh.
      rewrite !deb_debug, at_debug_app, deb_tables. do 3 f_equal.
      destruct (headers_block f) as [b| | |]; try reflexivity. rewrite at_debug_app. unfold decode_trace, decode_debug. rewrite at_debug_loop. f_equal.
      destruct (hpack_decode T d b) as [[[hs|?] d']| | |]; try reflexivity; [|apply deb_update].
      rewrite !at_debug_app, deb_fields, deb_request. do 2 f_equal.
      destruct (process_request W app hs w) as [[w' [r|]] ev]; [|reflexivity]. rewrite at_debug_app, deb_encode. f_equal.
      destruct (hpack_encode cs e (rs_headers r)) as [[? e']| | |]; try reflexivity. now rewrite !at_debug_app, deb_tables, deb_sent, deb_data, app_nil_r.
    - unfold frame_debug. rewrite Eh. destruct (_ =? FRAME_TYPE_SETTINGS).
      { rewrite deb_debug. destruct (has_flag f 1); [reflexivity|]. destruct (negb _); [|reflexivity]. now rewrite deb_err, deb_update. }
      destruct (_ =? FRAME_TYPE_WINDOW_UPDATE); [rewrite deb_debug; now destruct (read_window_update f)|].
      destruct (_ =? FRAME_TYPE_GOAWAY); [now rewrite deb_debug, deb_update|reflexivity].
  Qed.
  Lemma deb_try c w : at_debug (try_read_trace W app cs T says thrown c w) = try_read_debug W app cs T dsays thrown c w.
  Proof.
    unfold try_read_trace, try_read_debug. destruct (_ <? 9); [reflexivity|]. destruct (fh_parse _) as [h| | |]; try reflexivity.
    rewrite deb_debug. f_equal. destruct (_ >? _).
    { rewrite deb_warn, at_debug_app, deb_update. reflexivity. }
    destruct (_ <? _); [reflexivity|]. cbv zeta. rewrite at_debug_app, deb_frame. f_equal.
    destruct (process_frame _ _ _ _ _ _ _ _) as [[[[[[]]]]]| | |]; reflexivity.
  Qed.
  Lemma deb_dispatch c w : at_debug (dispatch_trace W app cs T says thrown c w) = dispatch_debug W app cs T dsays thrown c w.
  Proof.
    unfold dispatch_trace, dispatch_debug. destruct (c_state c); try reflexivity.
    - rewrite at_debug_app, deb_preface. f_equal. destruct (read_preface c) as [[[] ?] ?]; try reflexivity. apply deb_try.
    - apply deb_try.
    - now rewrite deb_err, deb_close.
  Qed.
  Lemma deb_internal fuel : forall s c w,
    at_debug (internal_trace W app cs T says thrown unhandled fuel s c w) = internal_debug W app cs T dsays thrown unhandled fuel s c w.
  Proof.
    induction fuel as [|n IH]; intros s c w; [reflexivity|]. cbn [internal_trace internal_debug].
    destruct (match c_state c with AwaitingHandshake => handle_handshake (sc_hs s) c | _ => (None, c, [], sc_hs s) end) as [[[r c0] ev0] hs'] eqn:Eh.
    rewrite deb_trace, at_debug_app.
    assert (S : at_debug (match c_state c with AwaitingHandshake => shake_trace (sc_hs s) | _ => [] end) =
                match r with Some _ => [] | None => update_debug (c_state c) (c_state c0) end).
    { revert Eh. destruct (c_state c) eqn:Es; try (intros [= <- <- <- <-]; now rewrite Es).
      unfold handle_handshake, shake_trace. destruct (sc_hs s) as [|[? [|[]]] ?]; intros [= <- <- <- <-]; reflexivity. }
    rewrite S. clear S Eh. destruct r; [reflexivity|]. destruct (flush_write_buffer (sc_wr s) c0) as [[c1 ev1] wr'].
    rewrite at_debug_app, deb_flush. do 2 f_equal. destruct (c_wbuf c1); [|reflexivity].
    destruct (fill_read_buffer (sc_rd s) c1) as [[c2 ev2] rd']. rewrite !at_debug_app, deb_fill, deb_dispatch. apply (f_equal (Datatypes.app (fill_debug (sc_rd s) c1))). apply (f_equal (Datatypes.app (dispatch_debug W app cs T dsays thrown c2 w))).
    destruct (Conn.dispatch W app cs T c2 w) as [[[[[] c3] ev3] w']| | |]; try reflexivity; [apply IH|]. now rewrite deb_err, deb_update.
  Qed.
  Lemma recorded_verbose others t0 w0 A r c tr w ms : recorded W app cs T says thrown unhandled others t0 w0 A r c tr w ms ->
    verbose W app cs T dsays thrown unhandled others t0 w0 A r c tr w (at_debug ms).
  Proof.
    induction 1 as [|r c tr w w' ms _ IH Ho|r c tr w s r' c' ev w' ms _ IH Hr Hs Ha Hp]; [constructor|econstructor; eassumption|].
    rewrite at_debug_app. unfold process_trace. rewrite deb_internal. eapply verbose_process; eassumption.
  Qed.
  Lemma recorded_exists others t0 w0 A r c tr w : session W app cs T others t0 w0 A r c tr w ->
    exists ms, recorded W app cs T says thrown unhandled others t0 w0 A r c tr w ms.
  Proof.
    induction 1 as [|r c tr w w' _ [ms IH] Ho|r c tr w s r' c' ev w' _ [ms IH] Hr Hs Ha Hp]; [eexists; constructor|..];
      eexists; [eapply recorded_others; eassumption|eapply recorded_process; eassumption].
  Qed.
End Debug.

(** ** The account *)
Definition quiet (ms : list message) : Prop := Forall (fun m => accounted m = false) ms.
Lemma quiet_nil : quiet [].
Proof. constructor. Qed.
Lemma quiet_app a b : quiet a -> quiet b -> quiet (a ++ b).
Proof. intros. now apply Forall_app. Qed.
Lemma quiet_errors ms : errors ms -> quiet ms.
Proof. apply Forall_impl. intros [l t] [_ E]. cbn in E. now subst. Qed.
Lemma quiet_cons m ms : accounted m = false -> quiet ms -> quiet (m :: ms).
Proof. now constructor. Qed.
Ltac hush := first [apply quiet_nil | apply quiet_cons; [reflexivity|]].

Lemma quiet_insert t h : quiet (insert_debug t h).
Proof. unfold insert_debug. cbv zeta. destruct (_ >? _); now repeat hush. Qed.
Lemma quiet_header t i : quiet (indexed_header_trace t i) /\ quiet (indexed_name_trace t i).
Proof.
  unfold indexed_header_trace, indexed_name_trace. cbv zeta. destruct (_ <? _).
  - destruct (nth_error _ _); split; now repeat hush.
  - destruct (_ >=? _).
    + split; apply quiet_errors, clean_lookup; apply printable_b; reflexivity.
    + destruct (dt_get t _); split; now repeat hush.
Qed.
Lemma quiet_indexed t r : quiet (indexed_field_trace t r).
Proof. unfold indexed_field_trace. destruct (int_decode 7 r) as [[i|e] r1]; [|now repeat hush]. destruct (i <? 1); [now repeat hush|apply quiet_header]. Qed.
Lemma quiet_literal T N t r : quiet (literal_field_trace T N t r).
Proof.
  unfold literal_field_trace. destruct (int_decode N r) as [[i|e] r1]; [|now repeat hush]. cbv zeta. hush.
  assert (V : forall n r2, quiet (read_length_and_string_messages T r2 ++
    match read_length_and_string T r2 with Ret (Val v, _) => [trace (str "decoded header: name: " ++ n ++ str ", value: " ++ v)] | _ => [] end)).
  { intros n r2. apply quiet_app; [apply quiet_errors, clean_read|]. destruct (read_length_and_string T r2) as [[[v|e] r3]| | |]; now repeat hush. }
  destruct (i =? 0); apply quiet_app.
  - apply quiet_errors, clean_read.
  - destruct (read_length_and_string T r1) as [[[v|e] r3]| | |]; try apply quiet_nil. apply V.
  - apply quiet_header.
  - destruct (read_indexed_header_name t i) as [[v|e]| | |]; try apply quiet_nil. apply V.
Qed.
Lemma quiet_size r : quiet (size_update_trace r).
Proof.
  unfold size_update_trace. apply quiet_app; [apply quiet_errors, clean_size|]. destruct (int_decode 5 r) as [[i|e] r1]; [destruct (i >? _)|]; now repeat hush.
Qed.
Lemma quiet_decode T fuel : forall t r, quiet (decode_loop_trace T fuel t r).
Proof.
  induction fuel as [|n IH]; intros t [|b r]; try apply quiet_nil. cbn [decode_loop_trace]. hush.
  destruct (from_byte b); try apply quiet_app; auto using quiet_indexed, quiet_literal, quiet_size.
  - destruct (decode_indexed_field t (b :: r)) as [[[?|?] ?]| | |]; auto using quiet_nil.
  - destruct (decode_literal_field T 6 t (b :: r)) as [[[h|?] ?]| | |]; auto using quiet_nil.
    destruct (dt_insert t h); auto using quiet_nil. apply quiet_app; auto using quiet_insert.
  - destruct (decode_size_update t (b :: r)) as [[[?|?] ?]| | |]; auto using quiet_nil.
  - destruct (decode_literal_field T 4 t (b :: r)) as [[[?|?] ?]| | |]; auto using quiet_nil.
  - destruct (decode_literal_field T 4 t (b :: r)) as [[[?|?] ?]| | |]; auto using quiet_nil.
  - now repeat hush.
Qed.
Lemma quiet_encode cs hs : forall t, quiet (encode_debug cs t hs).
Proof.
  induction hs as [|h hs IH]; intros t; [apply quiet_nil|]. cbn [encode_debug]. destruct (encode_header cs t h) as [[? t1]| | |]; try apply quiet_nil.
  apply quiet_app; [|apply IH]. destruct (find_index _ _); [apply quiet_nil|]. destruct (dt_find t h); [apply quiet_nil|apply quiet_insert].
Qed.
Lemma quiet_entries hs : forall pos, quiet (entries_debug pos hs).
Proof. induction hs as [|h hs IH]; intros pos; [apply quiet_nil|]. cbn [entries_debug]. hush. apply IH. Qed.
Lemma quiet_tables d e : quiet (tables_debug d e).
Proof. unfold tables_debug, contents_debug. hush. cbn [Datatypes.app]. hush. apply quiet_app; [apply quiet_entries|]. hush. hush. apply quiet_entries. Qed.
Lemma quiet_update s s' : quiet (update_debug s s').
Proof. unfold update_debug. destruct (same_state s s'); now repeat hush. Qed.
Lemma quiet_fields hs : quiet (fields_debug hs).
Proof. induction hs as [|h hs IH]; [apply quiet_nil|]. apply quiet_cons; [reflexivity|exact IH]. Qed.
Lemma digits_first fuel : forall n acc, exists d rest, to_digits (S fuel) n acc = d :: rest /\ 48 <= d <= 57.
Proof.
  induction fuel as [|f IH]; intros n acc; cbn [to_digits]; cbv zeta.
  - exists (48 + n mod 10), acc. destruct (n <? 10); (split; [reflexivity|lia]).
  - destruct (n <? 10); [exists (48 + n mod 10), acc; split; [reflexivity|lia]|]. apply (IH (n / 10)).
Qed.
Lemma number_first n : exists d rest, to_string n = d :: rest /\ 48 <= d <= 57.
Proof. apply digits_first. Qed.
Lemma quiet_sent r : quiet (sent_messages r).
Proof.
  unfold sent_messages. apply quiet_cons.
  - destruct (number_first (rs_status r)) as (d & rest & -> & Hd). unfold accounted, info, starts. cbn [m_level m_text]. cbv zeta.
    cbn -[Z.eqb]. now replace (118 =? d) with false by lia.
  - destruct (rs_body r); now repeat hush.
Qed.
Lemma quiet_close c : quiet (close_debug c).
Proof. unfold close_debug, close_messages. destruct (c_state c); cbn [Datatypes.app]; repeat hush; apply quiet_update. Qed.

Lemma account_app n tr ms n1 : account n tr ms n1 -> forall tr2 ms2 n2, account n1 tr2 ms2 n2 -> account n (tr ++ tr2) (ms ++ ms2) n2.
Proof. induction 1; intros tr2 ms2 n2 H2; cbn [Datatypes.app]; rewrite <- ?app_assoc;
    [exact H2|apply acc_event|apply acc_other|apply acc_round|apply acc_handshake|apply acc_read|apply acc_write|apply acc_busy|apply acc_answer|apply acc_no_answer|
     apply acc_preface|apply acc_short_preface|apply acc_short_header|apply acc_big|apply acc_short_frame|apply acc_frame]; auto.
Qed.
Lemma account_quiet n ms : quiet ms -> account n [] ms n.
Proof. induction 1; [constructor|now apply acc_other]. Qed.
Lemma account_before n a tr ms n' : quiet a -> account n tr ms n' -> account n tr (a ++ ms) n'.
Proof. intros Q H. exact (account_app _ _ _ _ (account_quiet n a Q) _ _ _ H). Qed.
Lemma account_after n a tr ms n' : quiet a -> account n tr ms n' -> account n tr (ms ++ a) n'.
Proof. intros Q H. rewrite <- (app_nil_r tr). eapply account_app; [exact H|now apply account_quiet]. Qed.
Lemma account_queue n o : account n [EvQueue o] [] n.
Proof. apply acc_event; [exact I|constructor]. Qed.

Lemma data_pieces fuel : forall b, (length b <= fuel)%nat -> pieces (lenZ b) (data_trace fuel b).
Proof.
  induction fuel as [|f IH]; intros [|x b] H; try (cbn; constructor); [cbn in H; lia|]. cbn [data_trace]. cbv zeta.
  change (MAX_FRAME_SIZE - 128) with 16256. set (l := x :: b) in *.
  assert (1 <= lenZ l) by (unfold l; rewrite lenZ_cons; pose proof (lenZ_nonneg b); lia).
  destruct (Z.le_gt_cases (lenZ l) 16256) as [C|C].
  - rewrite Z.min_l by lia. assert (E : skipn (Z.to_nat (lenZ l)) l = []) by (apply skipn_all2; unfold lenZ; lia). rewrite E.
    replace (data_trace f []) with (@nil message) by now destruct f. replace (lenZ l - lenZ l) with 0 by lia. apply last_piece. lia.
  - rewrite Z.min_r by lia. pose proof (IH (skipn (Z.to_nat 16256) l)) as P. rewrite skipn_length in P. unfold lenZ in *. rewrite skipn_length in P.
    replace (Z.of_nat (length l - Z.to_nat 16256)) with (Z.of_nat (length l) - 16256) in P by lia.
    pose proof (full_piece (Z.of_nat (length l) - 16256) _ ltac:(lia) (P ltac:(lia))) as Q. now replace (16256 + (Z.of_nat (length l) - 16256)) with (Z.of_nat (length l)) in Q by lia.
Qed.

Lemma pieces_none n ls : pieces n ls -> n = 0 -> ls = [].
Proof. intros []; [reflexivity|lia|]. lia. Qed.
Lemma int_encode_no_throw v : int_encode v 7 <> Throw.
Proof.
  assert (H : forall f v, encode_cont f v <> Throw).
  { induction f as [|f IH]; intros x; cbn [encode_cont]; [discriminate|]. destruct (_ >=? _); [|discriminate].
    specialize (IH (Z.shiftr x 7)). destruct (encode_cont f _); cbn [obind]; congruence. }
  unfold int_encode. cbn [Z.eqb Z.gtb orb Z.compare Pos.compare Pos.compare_cont]. destruct (_ <? _); [discriminate|].
  specialize (H 5%nat (u32 (v - (Z.shiftl 1 7 - 1)))). destruct (encode_cont _ _); cbn [obind]; congruence.
Qed.
Lemma huffman_no_throw cs s : huffman_encode cs s <> Throw.
Proof.
  unfold huffman_encode. generalize bw_init. induction s as [|c s IH]; intros bw; cbn [huffman_write]; [discriminate|].
  unfold huffman_code_of_char at 1. cbv zeta. destruct (_ <? _); cbn [obind]; [|discriminate]. destruct (nth_error _ _) as [[code len]|]; cbn [obind]; [apply IH|discriminate].
Qed.
Lemma string_no_throw cs s : write_length_and_string cs s <> Throw.
Proof.
  unfold write_length_and_string. destruct (_ >? _).
  - pose proof (huffman_no_throw cs s) as H. destruct (huffman_encode cs s) as [b| | |]; cbn [obind]; try congruence.
    pose proof (int_encode_no_throw (u32 (lenZ b))) as H2. destruct (int_encode _ 7) as [[|x y]| | |]; cbn [obind]; congruence.
  - pose proof (int_encode_no_throw (u32 (lenZ s))) as H2. destruct (int_encode _ 7) as [[|x y]| | |]; cbn [obind]; congruence.
Qed.
Lemma insert_no_throw t h : dt_insert t h <> Throw.
Proof.
  assert (H : forall l extra max size, evict extra max l size <> Throw).
  { induction l as [|x l IH]; intros extra max size; cbn [evict]; destruct (_ >? _); try discriminate. apply IH. }
  unfold dt_insert. cbv zeta. destruct (_ >? _); [discriminate|].
  specialize (H (rev (dt_table t)) (get_header_entry_size h) (dt_max t) (dt_size t)). destruct (evict _ _ _ _) as [[? ?]| | |]; cbn [obind]; congruence.
Qed.
Lemma encode_no_throw cs hs : forall t, hpack_encode cs t hs <> Throw.
Proof.
  induction hs as [|h hs IH]; intros t; cbn [hpack_encode]; [discriminate|].
  assert (H : encode_header cs t h <> Throw).
  { unfold encode_header. destruct (find_index _ _); [discriminate|]. destruct (dt_find t h); [discriminate|].
    pose proof (string_no_throw cs (h_value h)) as V. pose proof (string_no_throw cs (h_name h)) as N. pose proof (insert_no_throw t h) as I.
    destruct (find_index _ _); [|destruct (dt_find_name t (h_name h))];
      destruct (write_length_and_string cs (h_value h)); destruct (write_length_and_string cs (h_name h)); destruct (dt_insert t h); cbn [obind]; congruence. }
  destruct (encode_header cs t h) as [[b t1]| | |]; cbn [obind]; try congruence.
  specialize (IH t1). destruct (hpack_encode cs t1 hs) as [[? ?]| | |]; cbn [obind]; congruence.
Qed.

Section Account.
  Variable W : Type.
  Variable app : request -> W -> W * app_answer.
  Variable cs : bool.
  Variable T : tree.
  Variable says : request -> W -> list message.
  Variable thrown : request -> W -> bytes.
  Variable unhandled : conn -> W -> bytes.
  Hypothesis Hsays : forall rq w, quiet (says rq w).

  Lemma quiet_request hs w : quiet (request_messages W app says thrown hs w).
  Proof.
    unfold request_messages. destruct (get_header hs (str ":path")); [|now repeat hush]. destruct (get_header hs (str ":method")); [|now repeat hush].
    apply quiet_app; [apply Hsays|]. destruct (snd _); now repeat hush.
  Qed.
  Lemma account_frame n s f d e w fe d' e' w' ev : process_frame W app cs T f d e w = Ret (fe, d', e', w', ev) ->
    account n ev (frame_trace W app cs T says thrown s f d e w) n.
  Proof.
    unfold process_frame, frame_trace. destruct (f_type f =? FRAME_TYPE_HEADERS) eqn:Eh.
    - replace (f_type f =? FRAME_TYPE_SETTINGS) with false by (unfold FRAME_TYPE_HEADERS, FRAME_TYPE_SETTINGS in *; lia).
      intros H. apply acc_other; [reflexivity|]. apply acc_other; [reflexivity|]. apply account_before; [apply quiet_tables|].
      destruct (headers_block f) as [b| | |]; cbn [obind] in H; [|discriminate H..]. apply account_before; [apply quiet_decode|].
      destruct (hpack_decode T d b) as [[[hs|?] d2]| | |]; [|injection H as <- <- <- <- <-; apply account_quiet, quiet_update|injection H as <- <- <- <- <-; constructor|discriminate H..].
      apply account_before; [apply quiet_fields|]. apply account_before; [apply quiet_request|].
      destruct (process_request W app hs w) as [[w1 rs] ev0] eqn:Ep.
      assert (A : match rs with
                  | None => account n ev0 [] n
                  | Some r => forall ls, pieces (lenZ (rs_body r)) ls -> account n ev0 ls n
                  end).
      { revert Ep. unfold process_request. destruct (get_header hs (str ":path")); [destruct (get_header hs (str ":method"))|].
        - destruct (app _ w) as [w2 []]; intros [= <- <- <-]; cbn [complete_response rs_body].
          + intros ls Hl. rewrite <- (app_nil_r ls). now apply acc_answer; [|constructor].
          + intros ls Hl. rewrite <- (app_nil_r ls). now apply acc_answer; [|constructor].
          + apply acc_no_answer. constructor.
        - intros [= <- <- <-] ls Hl. apply pieces_none in Hl as ->; [constructor|reflexivity].
        - intros [= <- <- <-] ls Hl. apply pieces_none in Hl as ->; [constructor|reflexivity]. }
      destruct rs as [r|]; [|injection H as <- <- <- <- <-; exact A].
      apply account_before; [apply quiet_encode|]. pose proof (encode_no_throw cs (rs_headers r) e) as NT.
      destruct (hpack_encode cs e (rs_headers r)) as [[b1 e1]| | |]; [|now destruct NT|discriminate H..]. clear NT.
      destruct (write_data_response _ _ _) as [data| | |]; cbn [obind] in H; [|discriminate H..]. injection H as <- <- <- <- <-.
      apply account_before; [apply quiet_tables|]. apply account_before; [apply quiet_sent|].
      rewrite <- (app_nil_r (data_trace _ _)). eapply account_app; [apply A, data_pieces; reflexivity|].
      apply acc_event; [exact I|]. apply acc_event; [exact I|]. apply acc_event; [exact I|]. constructor.
    - unfold frame_debug. rewrite Eh. destruct (_ =? FRAME_TYPE_SETTINGS).
      { unfold read_settings. intros H. apply acc_other; [reflexivity|]. destruct (has_flag f 1).
        { injection H as <- <- <- <- <-. apply acc_other; [reflexivity|constructor]. }
        destruct (negb _); cbn [obind] in H; [injection H as <- <- <- <- <-; apply acc_other; [reflexivity|]; apply account_quiet, quiet_update|].
        destruct (read_entries _ _); cbn [obind] in H; [|discriminate H..]. injection H as <- <- <- <- <-. apply acc_other; [reflexivity|apply account_queue]. }
      destruct (_ =? FRAME_TYPE_WINDOW_UPDATE).
      { intros H. apply acc_other; [reflexivity|]. destruct (read_window_update f); cbn [obind] in H; [|discriminate H..].
        injection H as <- <- <- <- <-. apply acc_other; [reflexivity|constructor]. }
      destruct (_ =? FRAME_TYPE_GOAWAY); intros [= <- <- <- <- <-]; (apply acc_other; [reflexivity|]); [apply account_quiet, quiet_update|constructor].
  Qed.

  Definition left_over (v : verdict) (c : conn) (n : Z) : Prop := all_bytes (c_rbuf c) /\ (v <> Exception -> n = lenZ (c_rbuf c)).
  Lemma account_try c w v c' ev w' : all_bytes (c_rbuf c) -> try_read_frame W app cs T c w = Ret (v, c', ev, w') ->
    exists n, account (lenZ (c_rbuf c)) ev (try_read_trace W app cs T says thrown c w) n /\ left_over v c' n.
  Proof.
    intros Hb. unfold try_read_frame, try_read_trace. destruct (lenZ (c_rbuf c) <? 9) eqn:E9.
    { intros [= <- <- <- <-]. eexists. split; [|split; [exact Hb|reflexivity]]. apply acc_short_header; [lia|constructor]. }
    destruct (parse_total (c_rbuf c) ltac:(lia) Hb) as (h & -> & Hlen & _). cbn [obind]. change MAX_FRAME_SIZE with 16384.
    destruct (fh_length h >? 16384) eqn:Em.
    { intros [= <- <- <- <-]. eexists. split; [|split; [exact Hb|reflexivity]]. apply acc_big; [lia|lia|].
      apply account_quiet, quiet_app; [apply quiet_update|now repeat hush]. }
    destruct (lenZ (c_rbuf c) <? 9 + fh_length h) eqn:Et.
    { intros [= <- <- <- <-]. eexists. split; [|split; [exact Hb|reflexivity]]. apply acc_short_frame; [lia|lia|constructor]. }
    cbv zeta. destruct (process_frame _ _ _ _ _ _ _ _) as [[[[[fe d] e] w1] ev1]| | |] eqn:E; cbn [obind]; [|discriminate..].
    intros H. exists (lenZ (c_rbuf c) - (9 + fh_length h)). assert (ev1 = ev) as -> by (destruct fe; now injection H as _ _ -> _). split.
    - apply acc_frame; [lia|lia|]. apply account_after; [destruct fe; now repeat hush|]. eapply account_frame. exact E.
    - assert (L : lenZ (skipn (Z.to_nat (9 + fh_length h)) (c_rbuf c)) = lenZ (c_rbuf c) - (9 + fh_length h)) by (unfold lenZ in *; rewrite skipn_length; lia).
      clear Et E. revert H L. generalize (9 + fh_length h). intros total H L.
      destruct fe; injection H as <- <- _; (split; [cbn [c_rbuf discard]; auto using all_bytes_skipn|]); cbn [c_rbuf discard]; intros N; first [now rewrite L|now destruct N].
  Qed.
  Lemma account_dispatch c w v c' ev w' : all_bytes (c_rbuf c) -> Conn.dispatch W app cs T c w = Ret (v, c', ev, w') ->
    exists n, account (lenZ (c_rbuf c)) ev (dispatch_trace W app cs T says thrown c w) n /\ left_over v c' n.
  Proof.
    intros Hb. unfold Conn.dispatch, dispatch_trace. destruct (c_state c) eqn:Es.
    - intros [= <- <- <- <-]. eexists. split; [constructor|]. split; [exact Hb|congruence].
    - unfold read_preface, preface_trace, preface_debug, preface_messages, read_preface. change (lenZ CLIENT_PREFACE) with 24. destruct (_ <? 24) eqn:E24.
      { intros [= <- <- <- <-]. eexists. split; [|split; [exact Hb|reflexivity]]. apply acc_short_preface; [lia|constructor]. }
      destruct (bytes_eqb _ _).
      + set (c1 := discard 24 _). assert (L : lenZ (c_rbuf c1) = lenZ (c_rbuf c) - 24).
        { unfold c1. cbn [c_rbuf discard set_state enqueue]. unfold lenZ in *. rewrite skipn_length. lia. }
        destruct (try_read_frame W app cs T c1 w) as [[[[v2 c2] ev2] w2]| | |] eqn:Et; cbn [obind]; [|discriminate..].
        intros [= <- <- <- <-]. apply account_try in Et as (n & A & N); [|unfold c1; now apply all_bytes_skipn].
        exists n. split; [|exact N]. cbn [Datatypes.app]. apply acc_preface; [lia|]. apply acc_other; [reflexivity|]. apply account_before; [apply quiet_update|].
        apply acc_event; [exact I|]. now rewrite <- L.
      + intros [= <- <- <- <-]. eexists. split; [|split; [exact Hb|reflexivity]]. apply acc_other; [reflexivity|constructor].
    - apply account_try. exact Hb.
    - intros [= <- <- <- <-]. eexists. split; [|split; [exact Hb|reflexivity]]. apply acc_event; [exact I|]. apply account_quiet. hush. apply quiet_update.
    - unfold close. rewrite Es. intros [= <- <- <- <-]. eexists. split; [|split; [exact Hb|reflexivity]]. apply acc_event; [exact I|]. apply account_quiet. hush. apply quiet_close.
    - intros [= <- <- <- <-]. eexists. split; [constructor|split; [exact Hb|reflexivity]].
  Qed.
  Lemma account_fill rd : forall c c' ev rd', fill_read_buffer rd c = (c', ev, rd') -> all_bytes (c_rbuf c) ->
    Forall (fun x => match snd x with RdData o => all_bytes o /\ 1 <= lenZ o <= TEMP_READ_BUFFER_SIZE | RdErr _ => True end) rd ->
    account (lenZ (c_rbuf c)) ev (fill_trace rd c) (lenZ (c_rbuf c')) /\ all_bytes (c_rbuf c') /\
    Forall (fun x => match snd x with RdData o => all_bytes o /\ 1 <= lenZ o <= TEMP_READ_BUFFER_SIZE | RdErr _ => True end) rd'.
  Proof.
    induction rd as [|[now [o|e]] rd IH]; intros c c' ev rd'; cbn [fill_read_buffer fill_trace];
      (destruct (_ >=? _); [intros [= <- <- <-] Hb Hr; split; [apply account_quiet; now repeat hush|now split]|]).
    - intros [= <- <- <-] Hb Hr. split; [apply account_quiet; now repeat hush|now split].
    - destruct (fill_read_buffer rd _) as [[c2 ev2] rd2] eqn:E. intros [= <- <- <-] Hb Hr. inversion Hr as [|? ? Ho Hr']; subst. cbn [snd] in Ho. destruct Ho as [Ho _].
      apply IH in E; [|cbn [c_rbuf]; now apply all_bytes_app|exact Hr']. cbn [c_rbuf] in *. destruct E as (A & R). split; [|exact R].
      rewrite lenZ_app in *. apply acc_read. exact A.
    - intros [= <- <- <-] Hb Hr. inversion Hr; subst.
      assert (E : c_rbuf (match e with ConnectionClosed => set_state ClientClosed c | TransportProtocolError => set_state StProtocolError c | _ => c end) = c_rbuf c) by now destruct e.
      rewrite E. split; [|now split]. apply acc_event; [exact I|]. apply account_quiet. destruct e; repeat hush; apply quiet_update.
  Qed.
  Lemma account_flush wr c c' ev wr' : flush_write_buffer wr c = (c', ev, wr') ->
    account (lenZ (c_rbuf c)) ev (flush_trace wr c) (lenZ (c_rbuf c')) /\ c_rbuf c' = c_rbuf c.
  Proof.
    unfold flush_write_buffer, flush_trace. destruct (c_wbuf c) as [|x b] eqn:Ew; [intros [= <- <- <-]; split; [constructor|reflexivity]|].
    assert (Q : forall wr, quiet (flush_debug wr c)).
    { intros l. unfold flush_debug, flush_messages. rewrite Ew. destruct l as [|[? [| |[]]] ?]; cbn [Datatypes.app]; repeat hush; apply quiet_update. }
    destruct wr as [|[now [k|k|e]] wr].
    - intros [= <- <- <-]. split; [apply acc_busy; constructor|reflexivity].
    - intros [= <- <- <-]. split; [|reflexivity]. cbn [c_rbuf].
      set (n' := Z.max 0 (Z.min k (lenZ (x :: b)))). assert (L : n' = lenZ (firstn (Z.to_nat n') (x :: b))).
      { unfold lenZ at 1. rewrite firstn_length. unfold n'. unfold lenZ. lia. }
      rewrite L at 3. apply acc_write. constructor.
    - intros [= <- <- <-]. split; [|reflexivity]. apply acc_event; [exact I|]. apply account_quiet, Q.
    - intros [= <- <- <-]. split; [|now destruct e].
      destruct e; try (apply acc_event; [exact I|]; apply account_quiet, Q). apply acc_busy. constructor.
  Qed.
  Lemma account_internal fuel : forall s c w v c' ev w', internal_process W app cs T fuel s c w = Ret (v, c', ev, w') -> scripts_ok s -> all_bytes (c_rbuf c) ->
    exists n, account (lenZ (c_rbuf c)) ev (internal_trace W app cs T says thrown unhandled fuel s c w) n /\ left_over v c' n.
  Proof.
    induction fuel as [|k IH]; intros s c w v c' ev w'; [discriminate|]. cbn [internal_process internal_trace]. intros H Hs Hb.
    destruct (match c_state c with AwaitingHandshake => handle_handshake (sc_hs s) c | _ => (None, c, [], sc_hs s) end) as [[[r c0] ev0] hs'] eqn:Eh.
    assert (A0 : account (lenZ (c_rbuf c)) ev0 (match c_state c with AwaitingHandshake => shake_trace (sc_hs s) | _ => [] end) (lenZ (c_rbuf c0)) /\ c_rbuf c0 = c_rbuf c).
    { revert Eh. destruct (c_state c) eqn:Es; try (intros [= <- <- <- <-]; split; [constructor|reflexivity]).
      unfold handle_handshake, shake_trace. destruct (sc_hs s) as [|[? [|[]]] ?]; intros [= <- <- <- <-]; cbn [c_rbuf]; (split; [|reflexivity]);
        first [apply acc_handshake; apply account_quiet, quiet_update
              |apply acc_event; [exact I|]; apply account_quiet; now repeat hush
              |apply account_quiet; now repeat hush]. }
    destruct A0 as [A0 E0].
    assert (G : exists n, account (lenZ (c_rbuf c)) ev (match c_state c with AwaitingHandshake => shake_trace (sc_hs s) | _ => [] end ++
      match r with
      | Some _ => []
      | None =>
        let '(c1, _, wr') := flush_write_buffer (sc_wr s) c0 in
        flush_trace (sc_wr s) c0 ++
        match c_wbuf c1 with
        | _ :: _ => []
        | [] =>
          let '(c2, _, rd') := fill_read_buffer (sc_rd s) c1 in
          fill_trace (sc_rd s) c1 ++ dispatch_trace W app cs T says thrown c2 w ++
          match Conn.dispatch W app cs T c2 w with
          | Ret (Continue, c3, _, w') => internal_trace W app cs T says thrown unhandled k (Scripts hs' rd' wr') c3 w'
          | Ret (Exception, c3, _, _) =>
            err (str "unhandled error processing connection: " ++ unhandled c2 w) :: update_debug (c_state c3) StProtocolError
          | _ => []
          end
        end
      end) n /\ left_over v c' n); [|destruct G as (n & A & L); exists n; split; [apply acc_round; exact A|exact L]].
    destruct r.
    { injection H as <- <- <- <-. exists (lenZ (c_rbuf c0)). rewrite app_nil_r. split; [exact A0|]. split; [now rewrite E0|reflexivity]. }
    destruct (flush_write_buffer (sc_wr s) c0) as [[c1 ev1] wr'] eqn:Ef. apply account_flush in Ef as [A1 E1].
    destruct (c_wbuf c1).
    2:{ injection H as <- <- <- <-. exists (lenZ (c_rbuf c1)). rewrite app_nil_r. split; [eapply account_app; eassumption|]. split; [now rewrite E1, E0|reflexivity]. }
    destruct (fill_read_buffer (sc_rd s) c1) as [[c2 ev2] rd'] eqn:El. apply account_fill in El as (A2 & B2 & R2); [|now rewrite E1, E0|exact Hs].
    destruct (Conn.dispatch W app cs T c2 w) as [[[[v3 c3] ev3] w3]| | |] eqn:Ed; cbn [obind] in H; [|discriminate H..].
    apply account_dispatch in Ed as (n3 & A3 & B3 & N3); [|exact B2]. destruct v3.
    - destruct (internal_process W app cs T k _ c3 w3) as [[[[v4 c4] ev4] w4]| | |] eqn:Ei; cbn [obind] in H; [|discriminate H..].
      injection H as <- <- <- <-. apply IH in Ei as (n4 & A4 & L4); [|exact R2|exact B3]. exists n4. split; [|exact L4].
      rewrite N3 in A3 by discriminate. eauto 6 using account_app.
    - injection H as <- <- <- <-. exists n3. split; [|now split]. rewrite app_nil_r. eauto 6 using account_app.
    - injection H as <- <- <- <-. exists n3. split; [|now split]. rewrite <- (app_nil_r ev3). 
      assert (Q : quiet (err (str "unhandled error processing connection: " ++ unhandled c2 w) :: update_debug (c_state c3) StProtocolError)) by (hush; apply quiet_update).
      eauto 8 using account_app, account_quiet.
  Qed.
  Lemma recorded_account others t0 w0 A r c tr w ms : recorded W app cs T says thrown unhandled others t0 w0 A r c tr w ms ->
    exists n, account 0 tr ms n /\ all_bytes (c_rbuf c) /\ (r <> Some DiscardConnection -> n = lenZ (c_rbuf c)).
  Proof.
    induction 1 as [|r c tr w w' ms _ IH Ho|r c tr w s r' c' ev w' ms _ IH Hr Hs Ha Hp].
    - exists 0. split; [constructor|]. split; [constructor|reflexivity].
    - exact IH.
    - destruct IH as (n & A1 & B1 & N1). rewrite N1 in A1 by exact Hr. unfold process in Hp.
      destruct (internal_process _ _ _ _ _ _ _ _) as [[[[v c1] ev1] w1]| | |] eqn:E; cbn [obind] in Hp; [|discriminate Hp..].
      apply account_internal in E as (n2 & A2 & B2 & N2); [|exact Hs|exact B1]. exists n2.
      destruct v; try discriminate Hp; injection Hp as <- <- <- <-.
      + split; [eapply account_app; eassumption|]. split; [exact B2|]. intros _. apply N2. discriminate.
      + split; [eapply account_app; eassumption|]. split; [exact B2|]. congruence.
  Qed.
End Account.

(** ** Rounds *)
Definition calm (ms : list message) : Prop := Forall (fun m => forall x, m <> round_line x) ms.
Lemma calm_nil : calm [].
Proof. constructor. Qed.
Lemma calm_app a b : calm a -> calm b -> calm (a ++ b).
Proof. intros. now apply Forall_app. Qed.
Lemma calm_cons m ms : (forall x, m <> round_line x) -> calm ms -> calm (m :: ms).
Proof. now constructor. Qed.
Lemma quiet_calm ms : quiet ms -> calm ms.
Proof. apply Forall_impl. intros m H x ->. discriminate H. Qed.
Ltac soothe := first [apply calm_nil | apply calm_cons; [discriminate|]].

Lemma calm_data fuel : forall b, calm (data_trace fuel b).
Proof. induction fuel as [|n IH]; intros [|x b]; try apply calm_nil. cbn [data_trace]. cbv zeta. soothe. apply IH. Qed.
Lemma calm_fill rd : forall c, calm (fill_trace rd c).
Proof.
  induction rd as [|[now [o|e]] rd IH]; intros c; cbn [fill_trace]; (destruct (_ >=? _); [now repeat soothe|]); cbv zeta.
  - now repeat soothe.
  - soothe. apply IH.
  - destruct e; repeat soothe; apply quiet_calm, quiet_update.
Qed.
Lemma calm_flush wr c : calm (flush_trace wr c).
Proof.
  unfold flush_trace, flush_debug, flush_messages. destruct (c_wbuf c); [apply calm_nil|].
  destruct wr as [|[? [| |[]]] ?]; cbn [Datatypes.app]; repeat soothe; apply quiet_calm, quiet_update.
Qed.
Lemma calm_preface c : calm (preface_trace c).
Proof.
  unfold preface_trace, preface_debug, preface_messages, read_preface. destruct (_ <? _); [now repeat soothe|]. destruct (bytes_eqb _ _); [|now repeat soothe].
  cbn [Datatypes.app]. repeat soothe. apply quiet_calm, quiet_update.
Qed.
Lemma calm_shake hs : calm (shake_trace hs).
Proof. unfold shake_trace. destruct hs as [|[? [|[]]] ?]; repeat soothe. Qed.

Definition tells (s : bytes) (ms : list message) (s' : bytes) : Prop :=
  life s ms s' /\ forall a x b, ms = a ++ round_line x :: b -> life s a x.
Lemma tells_calm s ms s' : calm ms -> life s ms s' -> tells s ms s'.
Proof. intros C L. split; [exact L|]. intros a x b ->. apply Forall_app in C as [_ C]. inversion C as [|? ? H _]; subst. now destruct (H x). Qed.
Lemma tells_app s a s1 b s2 : tells s a s1 -> tells s1 b s2 -> tells s (a ++ b) s2.
Proof.
  intros [L1 R1] [L2 R2]. split; [eapply life_app; eassumption|]. intros p x q E. apply app_eq_app in E as (l & [[-> El]|[-> El]]).
  - destruct l as [|m l].
    + cbn [Datatypes.app] in El. rewrite app_nil_r in L1. rewrite <- (app_nil_r p). eapply life_app; [exact L1|]. apply (R2 [] x q). symmetry. exact El.
    + injection El as <- El. apply (R1 p x l). reflexivity.
  - eapply life_app; [exact L1|]. apply (R2 l x q). exact El.
Qed.
Lemma tells_round s ms s' : tells s ms s' -> tells s (round_line s :: ms) s'.
Proof.
  intros [L R]. split; [apply life_other; [now intros [E _]|exact L]|]. intros [|m a] x b E; cbn [Datatypes.app] in E.
  - injection E as E _. unfold str in E. assert (s = x) as -> by exact E. constructor.
  - injection E as <- E. apply life_other; [now intros [E' _]|]. apply (R a x b E).
Qed.
Lemma life_deb ms : forall s s', life s (at_debug ms) s' -> life s ms s'.
Proof.
  induction ms as [|m ms IH]; intros s s' H; [exact H|]. cbn [at_debug filter] in H.
  assert (C : m_level m = LTrace \/ life s (m :: at_debug ms) s') by (unfold at_debug; destruct (m_level m); auto). destruct C as [C|C].
  - rewrite C in H. apply life_other; [intros [E _]; congruence|]. apply IH. exact H.
  - clear H. inversion C; subst; [apply life_other|apply life_change]; auto.
Qed.
Lemma aside_deb ms : aside ms -> aside (at_debug ms).
Proof. intros H. apply Forall_forall. intros m Hm. unfold at_debug in Hm. apply filter_In in Hm as [Hm _]. unfold aside in H. rewrite Forall_forall in H. auto. Qed.

Section Rounds.
  Variable W : Type.
  Variable app : request -> W -> W * app_answer.
  Variable cs : bool.
  Variable T : tree.
  Variable says : request -> W -> list message.
  Variable thrown : request -> W -> bytes.
  Variable unhandled : conn -> W -> bytes.
  Hypothesis Hsays : forall rq w, quiet (says rq w).
  Hypothesis Hstates : forall rq w, aside (says rq w).
  Notation dsays := (fun rq w => at_debug (says rq w)).

  Lemma calm_frame s f d e w : calm (frame_trace W app cs T says thrown s f d e w).
  Proof.
    unfold frame_trace. destruct (f_type f =? FRAME_TYPE_HEADERS) eqn:Eh.
    - soothe. soothe. apply calm_app; [apply quiet_calm, quiet_tables|].
      destruct (headers_block f) as [b| | |]; try apply calm_nil. apply calm_app; [apply quiet_calm, quiet_decode|].
      destruct (hpack_decode T d b) as [[[hs|?] d2]| | |]; try apply calm_nil; [|apply quiet_calm, quiet_update].
      apply calm_app; [apply quiet_calm, quiet_fields|]. apply calm_app; [apply quiet_calm, quiet_request, Hsays|].
      destruct (process_request W app hs w) as [[w1 [rs|]] ev0]; [|apply calm_nil]. apply calm_app; [apply quiet_calm, quiet_encode|].
      destruct (hpack_encode cs e (rs_headers rs)) as [[b1 e1]| | |]; try apply calm_nil.
      apply calm_app; [apply quiet_calm, quiet_tables|]. apply calm_app; [apply quiet_calm, quiet_sent|apply calm_data].
    - unfold frame_debug. rewrite Eh. destruct (_ =? FRAME_TYPE_SETTINGS).
      { soothe. destruct (has_flag f 1); [now repeat soothe|]. destruct (negb _); repeat soothe. apply quiet_calm, quiet_update. }
      destruct (_ =? FRAME_TYPE_WINDOW_UPDATE); [soothe; destruct (read_window_update f); now repeat soothe|].
      destruct (_ =? FRAME_TYPE_GOAWAY); repeat soothe. apply quiet_calm, quiet_update.
  Qed.
  Lemma calm_try c w : calm (try_read_trace W app cs T says thrown c w).
  Proof.
    unfold try_read_trace. destruct (_ <? 9); [now repeat soothe|]. destruct (fh_parse _) as [h| | |]; try apply calm_nil. soothe. destruct (_ >? _).
    { soothe. apply calm_app; [apply quiet_calm, quiet_update|now repeat soothe]. }
    destruct (_ <? _); [now repeat soothe|]. cbv zeta. apply calm_app; [apply calm_frame|].
    destruct (process_frame _ _ _ _ _ _ _ _) as [[[[[[]]]]]| | |]; now repeat soothe.
  Qed.
  Lemma calm_dispatch c w : calm (dispatch_trace W app cs T says thrown c w).
  Proof.
    unfold dispatch_trace. destruct (c_state c); try apply calm_nil.
    - apply calm_app; [apply calm_preface|]. destruct (read_preface c) as [[[] ?] ?]; try apply calm_nil. apply calm_try.
    - apply calm_try.
    - soothe. apply quiet_calm, quiet_update.
    - soothe. apply quiet_calm, quiet_close.
  Qed.
  Lemma tells_internal fuel : forall s c w v c' ev w', internal_process W app cs T fuel s c w = Ret (v, c', ev, w') ->
    tells (name (c_state c)) (internal_trace W app cs T says thrown unhandled fuel s c w)
      (name (match v with Exception => StProtocolError | _ => c_state c' end)).
  Proof.
    induction fuel as [|n IH]; intros s c w v c' ev w'; [discriminate|]. cbn [internal_process internal_trace].
    destruct (match c_state c with AwaitingHandshake => handle_handshake (sc_hs s) c | _ => (None, c, [], sc_hs s) end) as [[[r c0] ev0] hs'] eqn:Eh.
    assert (L0 : tells (name (c_state c)) (match c_state c with AwaitingHandshake => shake_trace (sc_hs s) | _ => [] end) (name (c_state c0)) /\
                 (r = None -> shaken c0)).
    { revert Eh. unfold handle_handshake, shaken. destruct (c_state c) eqn:Es.
      2-6: intros [= <- <- <-]; rewrite Es; (split; [|discriminate]); apply tells_calm; constructor.
      intros E. split.
      - apply tells_calm; [apply calm_shake|]. unfold shake_trace. destruct (sc_hs s) as [|[? [|[]]] ?]; injection E as <- <- <- <-; rewrite ?Es; cbn [c_state];
          (apply life_other; [now intros [? _]|]); try apply life_end.
        apply (life_update AwaitingHandshake AwaitingPreface). intros _. constructor.
      - intros ->. destruct (sc_hs s) as [|[? [|[]]] ?]; try discriminate E. injection E as <- <- <-. discriminate. }
    destruct L0 as [L0 N0]. intros H. apply tells_round. eapply tells_app; [exact L0|]. clear L0 Eh.
    destruct r; [injection H as <- <- <- <-; apply tells_calm; constructor|]. specialize (N0 eq_refl).
    destruct (flush_write_buffer (sc_wr s) c0) as [[c1 ev1] wr'] eqn:Ef. apply life_flush in Ef; [|exact N0].
    assert (N1 : shaken c1) by now apply (life_shaken _ _ _ Ef).
    eapply tells_app; [apply tells_calm; [apply calm_flush|apply life_deb; rewrite deb_flush; exact Ef]|]. clear Ef N0.
    destruct (c_wbuf c1) eqn:Ew; [|injection H as <- <- <- <-; apply tells_calm; constructor].
    destruct (fill_read_buffer (sc_rd s) c1) as [[c2 ev2] rd'] eqn:El. apply life_fill in El; [|exact N1].
    assert (N2 : shaken c2) by now apply (life_shaken _ _ _ El).
    eapply tells_app; [apply tells_calm; [apply calm_fill|apply life_deb; rewrite deb_fill; exact El]|]. clear El N1.
    destruct (Conn.dispatch W app cs T c2 w) as [[[[v3 c3] ev3] w3]| | |] eqn:Ed; cbn [obind] in H; [|discriminate H..].
    apply (life_dispatch W app cs T dsays thrown (fun rq w => aside_deb _ (Hstates rq w))) in Ed; [|exact N2].
    assert (N3 : shaken c3) by now apply (life_shaken _ _ _ Ed).
    eapply tells_app; [apply tells_calm; [apply calm_dispatch|apply life_deb; rewrite (deb_dispatch _ _ _ _ _ _ unhandled); exact Ed]|]. clear Ed N2. destruct v3.
    - destruct (internal_process W app cs T n _ c3 w3) as [[[[v4 c4] ev4] w4]| | |] eqn:Ei; cbn [obind] in H; [|discriminate H..].
      injection H as <- <- <- <-. eapply IH; eauto.
    - injection H as <- <- <- <-. apply tells_calm; constructor.
    - injection H as <- <- <- <-. apply tells_calm; [soothe; apply quiet_calm, quiet_update|]. apply life_err. now apply life_error.
  Qed.
  Lemma recorded_tells others t0 w0 A r c tr w ms : recorded W app cs T says thrown unhandled others t0 w0 A r c tr w ms ->
    tells (name AwaitingHandshake) ms (name (c_state c)).
  Proof.
    induction 1 as [|r c tr w w' ms _ IH Ho|r c tr w s r' c' ev w' ms _ IH Hr Hs Ha Hp]; [apply tells_calm; constructor|exact IH|].
    eapply tells_app; [exact IH|]. unfold process in Hp.
    destruct (internal_process _ _ _ _ _ _ _ _) as [[[[v c1] ev1] w1]| | |] eqn:E; cbn [obind] in Hp; [|discriminate Hp..].
    apply tells_internal in E. destruct v; try discriminate Hp; injection Hp as <- <- <- <-; exact E.
  Qed.
End Rounds.

(** ** Octets *)
Lemma is_read_line n now : is_read (read_line n now) = true.
Proof.
  unfold is_read, read_line. cbn [m_text]. destruct (number_first n) as (d & rest & -> & Hd). cbn -[Z.leb]. replace (48 <=? d) with true by lia. now replace (d <=? 57) with true by lia.
Qed.
Lemma not_moved m : accounted m = false -> is_read m = false /\ is_flushed m = false.
Proof.
  unfold accounted, is_read, is_flushed, at_trace. destruct m as [l t]. cbn [m_level m_text]. destruct l; try now split. cbv zeta.
  destruct (starts (str "read ") t && a_digit (skipn 5 t)) eqn:E1; [discriminate|]. destruct (starts (str "flushed ") t); [discriminate|]. cbn [andb]. now split.
Qed.
Lemma pieces_moved n ls : pieces n ls -> filter is_read ls = [] /\ filter is_flushed ls = [].
Proof. induction 1 as [| |n ls _ _ IH]; try (split; reflexivity). exact IH. Qed.
Lemma account_octets n tr ms n' : account n tr ms n' ->
  Forall2 (fun o m => exists now, m = read_line (lenZ o) now) (reads tr) (filter is_read ms) /\
  Forall2 (fun o m => m = flushed_line (lenZ o)) (writes tr) (filter is_flushed ms).
Proof.
  induction 1 as [n|n e tr ms n' He _ [IH1 IH2]|n tr m ms n' Hm _ [IH1 IH2]|n tr s ms n' _ [IH1 IH2]|n t tr ms n' _ [IH1 IH2]|n t o tr ms n' _ [IH1 IH2]|n t b taken k tr ms n' _ [IH1 IH2]|
    n t b tr ms n' _ [IH1 IH2]|n rq r ls tr ms n' Hp _ [IH1 IH2]|n rq tr ms n' _ [IH1 IH2]|n tr ms n' _ _ [IH1 IH2]|n tr ms n' _ _ [IH1 IH2]|n tr ms n' _ _ [IH1 IH2]|
    n t f len tr ms n' _ _ _ [IH1 IH2]|n t f len tr ms n' _ _ _ [IH1 IH2]|n t f len tr ms n' _ _ _ [IH1 IH2]]; try (split; assumption).
  - split; constructor.
  - destruct e as [| | | | |? ? ? [[]|]| | |]; try contradiction; split; assumption.
  - destruct (not_moved m Hm) as [E1 E2]. cbn [filter]. rewrite E1, E2. split; assumption.
  - split; [|exact IH2]. cbn [filter]. rewrite is_read_line. cbn [reads flat_map List.app]. constructor; [eexists; reflexivity|exact IH1].
  - split; [exact IH1|]. cbn [filter writes flat_map List.app]. change (is_flushed (flushed_line (lenZ taken))) with true. constructor; [reflexivity|exact IH2].
  - rewrite !filter_app. destruct (pieces_moved _ _ Hp) as [-> ->]. split; assumption.
Qed.

(** ** Runs *)
Section Runs.
  Context {W : Type}.
  Variable app : request -> W -> W * app_answer.
  Variable cs : bool.
  Variable T : tree.
  Variable app_says : request -> W -> list message.
  Variable thrown : request -> W -> bytes.
  Variable unhandled : conn -> W -> bytes.
  Variable others : W -> W -> Prop.
  Variable t0 : Z.
  Variable w0 : W.
  Fixpoint record (ss : list scripts) (r : option result) (c : conn) (tr : Http.trace) (w : W) (ms : list message)
      : out (option result * conn * Http.trace * W * list message) :=
    match ss with
    | [] => Ret (r, c, tr, w, ms)
    | s :: ss' =>
      match r with
      | Some DiscardConnection => Fuel
      | _ => let! (r', c', ev, w') := process W app cs T s c w in
             record ss' (Some r') c' (tr ++ ev) w' (ms ++ process_trace W app cs T app_says thrown unhandled s c w)
      end
    end.
  Lemma record_recorded (A : scripts -> Prop) ss : Forall scripts_ok ss -> Forall A ss -> forall r c tr w ms r' c' tr' w' ms',
    recorded W app cs T app_says thrown unhandled others t0 w0 A r c tr w ms -> record ss r c tr w ms = Ret (r', c', tr', w', ms') ->
    recorded W app cs T app_says thrown unhandled others t0 w0 A r' c' tr' w' ms'.
  Proof.
    induction ss as [|s ss IH]; intros H1 H2 r c tr w ms r' c' tr' w' ms' HN E; cbn [record] in E.
    - now injection E as <- <- <- <- <-.
    - inversion H1; inversion H2; subst.
      destruct (process W app cs T s c w) as [[[[r1 c1] ev1] w1]| | |] eqn:Ep; try (destruct r as [[]|]; discriminate E).
      assert (Hr : r <> Some DiscardConnection) by (intros ->; discriminate E).
      eapply IH; [assumption|assumption| |].
      + eapply recorded_process; eauto.
      + destruct r as [[]|]; try exact E. now destruct Hr.
  Qed.
  Lemma by_record (A : scripts -> Prop) ss r (Phi : conn -> Http.trace -> W -> list message -> Prop) : Forall scripts_ok ss -> Forall A ss ->
    match record ss None (fresh_conn t0) [] w0 [] with Ret (r', c, tr, w, ms) => r' = r /\ Phi c tr w ms | _ => False end ->
    exists c tr w ms, recorded W app cs T app_says thrown unhandled others t0 w0 A r c tr w ms /\ Phi c tr w ms.
  Proof.
    intros H1 H2. destruct (record ss None (fresh_conn t0) [] w0 []) as [[[[[r' c] tr] w] ms]| | |] eqn:E; try easy.
    intros [-> HP]. exists c, tr, w, ms. split; [|exact HP]. eapply record_recorded; eauto. constructor.
  Qed.
End Runs.
