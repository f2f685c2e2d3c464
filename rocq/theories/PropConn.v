(** Claims C27-C46 and C71-C74 about connections.

    [session W app cs T others t0 w0 A r c tr w]: a connection created at time t0 has been
    processed any number of times, by whatever transport results [A] allows; the last call
    returned [r], [tr] is everything observed.  [app] is the application (state [W],
    initially [w0], which other connections may change as [others] allows); [cs]: plain
    char is signed; [T]: the decoder's Huffman tree. *)
From Verif Require Import Base BaseLemmas SpecFrames SpecHpack SpecHpackEnc Huffman HuffmanProofs DynTable HpackDec HpackEnc
  Frames FramesProofs Http Conn SpecConn ConnLemmas ConnRule ConnBasic ConnTerm ConnRun ConnSpec ConnMain ConnDet ConnMore
  ConnUndef ConnLast ConnWit.

(** C27.  [x] is what the client sends; it keeps its side open and the transport does not
    fail.  The application's state is not changed by other connections. *)
Theorem C27_segmentation : forall W app cs T w0 A1 A2 t1 t2 x r1 c1 tr1 w1 r2 c2 tr2 w2,
  session W app cs T eq t1 w0 A1 r1 c1 tr1 w1 -> session W app cs T eq t2 w0 A2 r2 c2 tr2 w2 ->
  done_with x r1 tr1 -> done_with x r2 tr2 ->
  visible tr1 = visible tr2 /\ queued tr1 = queued tr2 /\ requests tr1 = requests tr2 /\ logged tr1 = logged tr2.
Proof.
  intros W app cs T w0 A1 A2 t1 t2 x r1 c1 tr1 w1 r2 c2 tr2 w2 H1 H2 D1 D2.
  pose proof (segmentation W app cs T w0 A1 A2 t1 t2 x r1 c1 tr1 w1 r2 c2 tr2 w2 H1 H2 D1 D2) as E.
  split; [exact E|exact (visible_same _ _ E)].
Qed.
Print Assumptions C27_segmentation.

Example C27_case : forall T cs, exists c1 tr1 w1 c2 tr2 w2,
  session unit hi cs T eq 0 tt any (Some WantRead) c1 tr1 w1 /\ session unit hi cs T eq 7 tt whole (Some WantRead) c2 tr2 w2 /\
  done_with (w_hello ++ w_get) (Some WantRead) tr1 /\ done_with (w_hello ++ w_get) (Some WantRead) tr2 /\
  lenZ (requests tr1) = 1 /\ tr1 <> tr2.
Proof.
  intros T cs. destruct (exchange T cs) as (c1 & tr1 & w1 & H1 & R1 & Q1 & _ & _ & _ & F1).
  destruct (exchange_slow T cs) as (c2 & tr2 & w2 & H2 & R2 & Q2 & F2).
  exists c1, tr1, w1, c2, tr2, w2. do 2 (split; [assumption|]). do 2 (split; [left; auto|]).
  split; [rewrite Q1; reflexivity|]. intros E. subst tr2. rewrite F1 in F2. discriminate F2.
Qed.

(** C28 *)
Theorem C28_preface_first : forall W app cs T others t0 w0 A r c tr w,
  session W app cs T others t0 w0 A r c tr w ->
  delivered tr <> [] \/ requests tr <> [] \/ logged tr <> [] -> exists x, received tr = rfc_preface ++ x.
Proof. exact preface_first. Qed.
Print Assumptions C28_preface_first.

Theorem C28_wrong_preface : forall W app cs T others t0 w0 A r c tr w,
  session W app cs T others t0 w0 A r c tr w ->
  24 <= lenZ (received tr) -> firstn 24 (received tr) <> rfc_preface ->
  r = Some DiscardConnection /\ delivered tr = [] /\ requests tr = [] /\ logged tr = [].
Proof. exact wrong_preface. Qed.
Print Assumptions C28_wrong_preface.

Example C28_case : forall T cs, exists c tr w,
  session unit hi cs T eq 0 tt any (Some DiscardConnection) c tr w /\
  24 <= lenZ (received tr) /\ firstn 24 (received tr) <> rfc_preface.
Proof.
  intros T cs. destruct (wrong_preface_dropped T cs) as (c & tr & w & H & E). exists c, tr, w. split; [exact H|].
  rewrite E. split; discriminate.
Qed.

(** C29.  What the server does is a conversation in the sense of SpecConn.v: the octets
    queued are its SETTINGS frame and the answers to the client's frames, in order, and
    possibly a GOAWAY frame at the end.  Partial: a header block of 2^24 octets or more does not fit
    the length field of a frame (conv_sent). *)
Theorem C29_conversation_partial : forall W app cs T others t0 w0 A r c tr w,
  huffman_tree = Ret T -> answers_ok cs app ->
  session W app cs T others t0 w0 A r c tr w ->
  silent r tr \/
  exists ins txs outs byes escaped rest,
    conversation others app w0 tr ins txs outs byes escaped rest /\
    (byes = [] \/ exists g, byes = [g] /\ goaway_frame g) /\
    (escaped = [] \/ exists rq, escaped = [(rq, None)]) /\
    (r <> Some DiscardConnection -> byes = [] /\ escaped = []) /\
    (r = Some WantRead -> partial_frame rest) /\
    (r = Some DiscardConnection -> fault_free tr -> ended_by txs byes escaped rest).
Proof.
  intros W app cs T others t0 w0 A r c tr w HT.
  exact (fun Happ => session_conversation W app cs T others t0 w0 (is_tree_intro T HT) Happ A r c tr w).
Qed.
Print Assumptions C29_conversation_partial.

Example C29_case : forall cs, exists T c tr w, huffman_tree = Ret T /\ answers_ok cs hi /\
  session unit hi cs T eq 0 tt any (Some WantRead) c tr w /\
  received tr = w_hello ++ w_get /\ requests tr = [(get_root, Some (Response 200 [] [104; 105]))] /\ lenZ (delivered tr) = 80.
Proof.
  intros cs. destruct (exchange the_tree cs) as (c & tr & w & H & R & Q & _ & _ & L & _).
  exists the_tree, c, tr, w. split; [exact huffman_tree_eq|]. split; [apply hi_ok|]. auto.
Qed.

(** With a header block of 2^24 + 21 octets what the client receives cannot be read as
    answers to its frames. *)
Theorem C29_framing_refuted : forall T cs, exists app c tr w, answers_ok cs app /\
  session unit app cs T eq 0 tt any (Some WantWrite) c tr w /\ received tr = w_hello ++ w_get /\
  forall ins txs outs, answered ins txs outs -> ~ frames_octets (server_settings :: outs) (queued tr).
Proof.
  intros T cs. destruct (some_nat (2 ^ 24) ltac:(discriminate)) as (n & Hn).
  destruct (big_session T cs n) as (c & tr & w & H & R & Q).
  exists (big n), c, tr, w. split; [apply big_ok|]. split; [exact H|]. split; [exact R|].
  intros ins txs outs Ha Hf. rewrite Q in Hf. destruct (big_unfit n _ Hn Hf) as (f & [<-|Hi] & Ht); [discriminate Ht|].
  apply answered_types in Ha. rewrite Forall_forall in Ha. specialize (Ha f Hi). rewrite Ht in Ha.
  destruct Ha as [?|[?|?]]; discriminate.
Qed.
Print Assumptions C29_framing_refuted.

(** C30.  Every response's frames are consecutive in the output, and its DATA frames carry
    the body of the response: END_STREAM (1) on the last frame only. *)
Theorem C30_bodies : forall W app cs T others t0 w0 A r c tr w,
  huffman_tree = Ret T -> answers_ok cs app ->
  session W app cs T others t0 w0 A r c tr w ->
  silent r tr \/
  exists ins txs outs byes escaped rest,
    conversation others app w0 tr ins txs outs byes escaped rest /\
    forall t1 tx t2, txs = t1 ++ tx :: t2 ->
      exists outs1 flags stream ds outs2,
        outs = outs1 ++ (WFrame 1 flags stream (tx_sent_block tx) :: ds) ++ outs2 /\
        data_layout stream (rs_body (tx_sent tx)) ds /\ ((ds = [] /\ flags = 5) \/ (ds <> [] /\ flags = 4)) /\
        (forall rq rs, In (rq, Some rs) (tx_app tx) -> rs_body (tx_sent tx) = rs_body rs).
Proof.
  intros W app cs T others t0 w0 A r c tr w HT Happ H.
  destruct (session_conversation W app cs T others t0 w0 (is_tree_intro T HT) Happ A r c tr w H)
    as [Hs|(ins & txs & outs & byes & esc & rest & Hc & _)]; [now left|right].
  exists ins, txs, outs, byes, esc, rest. split; [exact Hc|]. intros t1 tx t2 E.
  destruct (answered_tx _ _ _ (conv_answered _ _ _ _ _ _ _ _ _ _ Hc) t1 tx t2 E)
    as (i1 & fl1 & s1 & p1 & i2 & o1 & fs1 & o2 & _ & Eo & _ & _ & Hsv & Hr).
  apply response_layout in Hr as (fl & ds & -> & Hd & Hfl). exists o1, fl, s1, ds, o2.
  split; [exact Eo|]. split; [exact Hd|]. split; [exact Hfl|].
  intros rq rs Hin. destruct Hsv as [_|m p rs' fields _ _ _]; [destruct Hin|].
  destruct Hin as [Hin|[]]. injection Hin as _ <-. reflexivity.
Qed.
Print Assumptions C30_bodies.

(** C31.  A response of a handler is sent with the fields the property lists ... *)
Theorem C31_handler_responses : forall W app cs T others t0 w0 A r c tr w,
  huffman_tree = Ret T -> answers_ok cs app ->
  session W app cs T others t0 w0 A r c tr w ->
  silent r tr \/
  exists ins txs outs byes escaped rest,
    conversation others app w0 tr ins txs outs byes escaped rest /\
    forall tx, In tx txs ->
      (tx_app tx = [] /\ tx_sent tx = Response 400 [] [] /\
       (no_field (tx_fields tx) (str ":path") \/ no_field (tx_fields tx) (str ":method"))) \/
      (exists m p rs, tx_app tx = [(Request m p (tx_fields tx), Some rs)] /\
         first_field (tx_fields tx) (str ":method") m /\ first_field (tx_fields tx) (str ":path") p /\
         rs_status (tx_sent tx) = rs_status rs /\ response_fields rs (rs_headers (tx_sent tx))).
Proof.
  intros W app cs T others t0 w0 A r c tr w HT Happ H.
  destruct (session_conversation W app cs T others t0 w0 (is_tree_intro T HT) Happ A r c tr w H)
    as [Hs|(ins & txs & outs & byes & esc & rest & Hc & _)]; [now left|right].
  exists ins, txs, outs, byes, esc, rest. split; [exact Hc|]. intros tx Hin. apply in_split in Hin as (t1 & t2 & E).
  destruct (answered_tx _ _ _ (conv_answered _ _ _ _ _ _ _ _ _ _ Hc) t1 tx t2 E)
    as (i1 & fl1 & s1 & p1 & i2 & o1 & fs1 & o2 & _ & _ & _ & _ & Hsv & _).
  destruct Hsv as [Hno|m p rs fields Hm Hp Hf]; [left; auto|right]. exists m, p, rs. cbn [rs_status rs_headers]. auto.
Qed.
Print Assumptions C31_handler_responses.

(** ... but the server's own 400 response has no :status, and no other field. *)
Theorem C31_status_refuted : forall T cs, exists c tr w,
  session unit hi cs T eq 0 tt any (Some WantRead) c tr w /\
  received tr = w_hello ++ [0; 0; 1; 1; 5; 0; 0; 0; 1; 130] /\
  frames_octets [server_settings; WFrame 4 1 0 []; WFrame 1 5 1 []] (delivered tr).
Proof.
  intros T cs. destruct (no_status T cs) as (c & tr & w & H & R & D). exists c, tr, w. split; [exact H|]. split; [exact R|].
  rewrite D. apply frames_octets_cons; [exact o_settings_frame|]. apply frames_octets_cons; [exact o_ack_frame|].
  apply frames_octets_one. exact (serialized_frame 1 5 1 [] ltac:(easy) ltac:(easy) ltac:(easy) ltac:(easy)).
Qed.
Print Assumptions C31_status_refuted.

(** C32.  [c_wbuf c] is the output buffer.  True when the transport reports what it took
    ... *)
Theorem C32_no_loss_partial : forall W app cs T others t0 w0 r c tr w,
  session W app cs T others t0 w0
    (fun s => Forall any (sc_rd s) /\ Forall (fun x => match snd x with WrPartial k => k <= 0 | _ => True end) (sc_wr s)) r c tr w ->
  delivered tr ++ c_wbuf c = queued tr.
Proof. exact no_loss. Qed.
Print Assumptions C32_no_loss_partial.

Example C32_case : forall T cs, exists c tr w,
  session unit hi cs T eq 0 tt (fun s => Forall any (sc_rd s) /\
     Forall (fun x => match snd x with WrPartial k => k <= 0 | _ => True end) (sc_wr s)) (Some WantRead) c tr w /\
  received tr = w_hello ++ w_get /\ lenZ (filter is_write tr) = 5.
Proof.
  intros T cs. destruct (blocked_writes T cs) as (c & tr & w & H & R & E & _). exists c, tr, w. split; [exact H|].
  split; [exact R|]. apply (f_equal lenZ) in E. unfold lenZ in *. rewrite map_length in E. exact E.
Qed.

(** ... but the TCP transport reports a partial write as an error, and the octets taken
    are sent again. *)
Theorem C32_duplicates_refuted : forall T cs, exists c tr w,
  session unit hi cs T eq 0 tt any (Some DiscardConnection) c tr w /\
  queued tr = o_settings ++ o_goaway /\ delivered tr = firstn 5 o_settings ++ o_settings.
Proof. exact partial_write_repeats. Qed.
Print Assumptions C32_duplicates_refuted.

(** C33.  [c_rbuf c] is the receive buffer.  Between calls it holds fewer than 65536
    octets; during a call it grows only by reading, which keeps the bound ... *)
Theorem C33_bounded : forall W app cs T others t0 w0 A r c tr w,
  session W app cs T others t0 w0 A r c tr w -> all_bytes (c_rbuf c) /\ lenZ (c_rbuf c) < 65536.
Proof. exact buffer_bounded. Qed.
Print Assumptions C33_bounded.

Theorem C33_reading_bounded : forall s c c' ev rd', scripts_ok s ->
  all_bytes (c_rbuf c) /\ lenZ (c_rbuf c) < 65536 -> fill_read_buffer (sc_rd s) c = (c', ev, rd') ->
  all_bytes (c_rbuf c') /\ lenZ (c_rbuf c') < 65536.
Proof. intros s c c' ev rd' Hs Hb E. exact (proj1 (fill_buffered unit hi (fun _ _ => True) tt (sc_rd s) c c' ev rd' Hs Hb E)). Qed.
Print Assumptions C33_reading_bounded.

(** ... a buffer in which there is no room for another read (49152 octets) holds a whole
    frame or the header of an oversized one; and when the server waits for the client
    there is room. *)
Theorem C33_never_wedges : forall x, all_bytes x -> 16393 <= lenZ x ->
  (exists f o r, frame_octets f o /\ x = o ++ r) \/ (exists len, announces x len /\ 16384 < len).
Proof. exact full_not_partial. Qed.
Print Assumptions C33_never_wedges.

Theorem C33_waiting_has_room : forall W app cs T others t0 w0 A c tr w,
  session W app cs T others t0 w0 A (Some WantRead) c tr w -> lenZ (c_rbuf c) < 9 + 16384.
Proof. exact waiting_has_room. Qed.
Print Assumptions C33_waiting_has_room.

Example C33_case : forall T cs, exists c tr w,
  session unit hi cs T eq 0 tt any (Some WantRead) c tr w /\ c_rbuf c = repeat 65 20.
Proof.
  intros T cs. apply (by_run hi cs T eq 0 tt any [deliver [octets (repeat 65 20)]]); [scripts_ok|apply Forall_any|].
  destruct cs; vm_compute; repeat split.
Qed.

(** C34.  A call for a live connection neither throws nor loops, on any input ... *)
Theorem C34_returns_or_undefined : forall W app cs T others t0 w0 A r c tr w s,
  huffman_tree = Ret T ->
  session W app cs T others t0 w0 A r c tr w -> scripts_ok s ->
  (exists r' c' ev w', process W app cs T s c w = Ret (r', c', ev, w')) \/ process W app cs T s c w = Undef.
Proof.
  intros W app cs T others t0 w0 A r c tr w s HT HS Hs.
  destruct (process_returns W app cs T (is_tree_intro T HT) others t0 w0 A r c tr w s HS Hs) as [([[[r' c'] ev] w'] & E)|E];
    [left; exists r', c', ev, w'; exact E|right; exact E].
Qed.
Print Assumptions C34_returns_or_undefined.

(** ... and returns, unless the octets available contain a malformed frame (see C72). *)
Theorem C34_returns : forall W app cs T others t0 w0 A r c tr w s,
  huffman_tree = Ret T -> answers_ok cs app ->
  session W app cs T others t0 w0 A r c tr w -> r <> Some DiscardConnection -> scripts_ok s ->
  (forall ins o f fo txs outs y,
     received tr ++ available (sc_rd s) = rfc_preface ++ o ++ fo ++ y ->
     frames_octets ins o -> frame_octets f fo -> answered ins txs outs -> ~ malformed txs f) ->
  exists r' c' ev w', process W app cs T s c w = Ret (r', c', ev, w').
Proof.
  intros W app cs T others t0 w0 A r c tr w s HT Happ HS Hr Hs Hw.
  destruct (process_returns W app cs T (is_tree_intro T HT) others t0 w0 A r c tr w s HS Hs) as [([[[r' c'] ev] w'] & E)|E];
    [exists r', c', ev, w'; exact E|exfalso].
  destruct (undefined_only_if_malformed W app cs T others t0 w0 (is_tree_intro T HT) A r c tr w s HS Hr Hs Happ E)
    as (ins & o & f & fo & txs & outs & y & H1 & H2 & H3 & _ & H5 & H6).
  exact (Hw ins o f fo txs outs y H1 H2 H3 H5 H6).
Qed.
Print Assumptions C34_returns.

(** Case: a connection that has already answered a request. *)
Example C34_case : forall cs, exists T c tr w s, huffman_tree = Ret T /\
  session unit hi cs T eq 0 tt any (Some WantRead) c tr w /\ scripts_ok s /\ lenZ (requests tr) = 1 /\
  available (sc_rd s) = w_get ++ w_get.
Proof.
  intros cs. destruct (exchange the_tree cs) as (c & tr & w & H & R & Q & _).
  exists the_tree, c, tr, w, (Scripts [] [octets (w_get ++ w_get)] []). split; [exact huffman_tree_eq|]. split; [exact H|].
  split; [apply scripts_okb; reflexivity|]. split; [now rewrite Q|reflexivity].
Qed.

(** C35: false.  One call receives and answers any number of frames. *)
Theorem C35_unbounded_refuted : forall T cs n, exists s r c ev w, scripts_ok s /\
  process unit hi cs T s (fresh_conn 0) tt = Ret (r, c, ev, w) /\
  received ev = rfc_preface ++ concat (repeat w_settings (S n)) /\
  delivered ev = o_settings ++ concat (repeat o_ack (S n)).
Proof. exact one_call_many_frames. Qed.
Print Assumptions C35_unbounded_refuted.

(** C36.  While the server waits for the client, everything queued has been sent; the
    exception is the SETTINGS frame of a connection on which nothing else happened. *)
Theorem C36_unsent_partial : forall W app cs T others t0 w0 c tr w,
  session W app cs T others t0 w0
    (fun s => Forall any (sc_rd s) /\ Forall (fun x => match snd x with WrPartial k => k <= 0 | _ => True end) (sc_wr s))
    (Some WantRead) c tr w ->
  delivered tr = queued tr \/ (delivered tr = [] /\ frame_octets server_settings (queued tr) /\ requests tr = []).
Proof.
  intros W app cs T others t0 w0 c tr w H.
  destruct (nothing_unsent W app cs T others t0 w0 c tr w H) as [E|(E1 & E2 & E3)]; [now left|right].
  split; [exact E1|]. split; [|exact E3]. rewrite E2. exact settings_frame.
Qed.
Print Assumptions C36_unsent_partial.

(** That exception: the client sent the preface and waits for the server's SETTINGS. *)
Theorem C36_settings_refuted : forall T cs, exists c tr w,
  session unit hi cs T eq 0 tt any (Some WantRead) c tr w /\
  received tr = rfc_preface /\ queued tr = o_settings /\ delivered tr = [] /\
  Forall (fun e => is_write e = false) tr.
Proof. exact settings_left_unsent. Qed.
Print Assumptions C36_settings_refuted.

(** C37: false, always.  When a GOAWAY frame (octet 3 of the frame is its type) is queued,
    the connection is dropped and nothing more happens: it is never handed to the
    transport. *)
Theorem C37_never_sent_refuted : forall W app cs T others t0 w0 A r c tr w a o b g,
  session W app cs T others t0 w0 A r c tr w ->
  tr = a ++ EvQueue o :: b -> frame_octets g o -> goaway_frame g ->
  r = Some DiscardConnection /\ b = [].
Proof.
  intros W app cs T others t0 w0 A r c tr w a o b g H E (h & -> & l & s & x & -> & _ & Hl & _) [Ht _].
  eapply goaway_dropped; [exact H|exact E|]. destruct (list_len3 l Hl) as (l1 & l2 & l3 & ->). cbn. now rewrite Ht.
Qed.
Print Assumptions C37_never_sent_refuted.

(** Case: an oversized frame. *)
Theorem C37_announced_refuted : forall T cs, exists c tr w,
  session unit hi cs T eq 0 tt any (Some DiscardConnection) c tr w /\ fault_free tr /\
  received tr = w_hello ++ [0; 64; 1; 0; 0; 0; 0; 0; 1] /\
  queued tr = o_settings ++ o_ack ++ o_goaway /\ delivered tr = o_settings ++ o_ack.
Proof. exact goaway_never_sent. Qed.
Print Assumptions C37_announced_refuted.

(** C38.  An application that fails behaves like one that answers 500 instead. *)
Theorem C38_failures : forall W app cs T others t0 w0 A r c tr w,
  session W app cs T others t0 w0 A r c tr w <-> session W (recovering app) cs T others t0 w0 A r c tr w.
Proof. exact session_fails. Qed.
Print Assumptions C38_failures.

Example C38_case : forall T cs, exists c tr w, session unit failing cs T eq 0 tt any (Some WantRead) c tr w /\
  received tr = w_hello ++ w_get /\ requests tr = [(get_root, Some (Response 500 [] []))] /\
  exists x, delivered tr = x ++ [142] ++ o_tail.
Proof. exact failing_exchange. Qed.

(** C39.  After a frame header that announces more than 16384 octets no frame is handled:
    the frames handled are among those before it; the server does not wait for more. *)
Theorem C39_oversized_stops : forall W app cs T others t0 w0 A r c tr w ins o x len,
  huffman_tree = Ret T -> answers_ok cs app ->
  session W app cs T others t0 w0 A r c tr w ->
  received tr = rfc_preface ++ o ++ x -> frames_octets ins o -> Forall (fun f => lenZ (w_payload f) <= 16384) ins ->
  announces x len -> 16384 < len ->
  r <> Some WantRead /\
  (silent r tr \/ exists ins1 more txs outs byes escaped rest, ins = ins1 ++ more /\
     conversation others app w0 tr ins1 txs outs byes escaped rest).
Proof.
  intros W app cs T others t0 w0 A r c tr w ins o x len HT Happ.
  exact (oversized_stops W app cs T others t0 w0 (is_tree_intro T HT) Happ A r c tr w ins o x len).
Qed.
Print Assumptions C39_oversized_stops.

(** A connection that is dropped although the transport did not fail is dropped for an
    oversized frame, a refused frame (never for its size), or an escaped exception. *)
Theorem C39_only_reasons : forall W app cs T others t0 w0 A c tr w x,
  huffman_tree = Ret T -> answers_ok cs app ->
  session W app cs T others t0 w0 A (Some DiscardConnection) c tr w -> fault_free tr ->
  received tr = rfc_preface ++ x ->
  exists ins txs outs byes escaped rest,
    conversation others app w0 tr ins txs outs byes escaped rest /\ ended_by txs byes escaped rest.
Proof.
  intros W app cs T others t0 w0 A c tr w x HT Happ H Hf Hr.
  exact (dropped_reasons W app cs T others t0 w0 (is_tree_intro T HT) Happ A c tr w x H Hf Hr).
Qed.
Print Assumptions C39_only_reasons.

Example C39_case : forall cs, exists T c tr w, huffman_tree = Ret T /\ answers_ok cs hi /\
  session unit hi cs T eq 0 tt any (Some DiscardConnection) c tr w /\ lenZ (requests tr) = 1 /\
  received tr = rfc_preface ++ (w_settings ++ w_get) ++ [0; 64; 1; 0; 0; 0; 0; 0; 1] ++ w_get /\
  announces ([0; 64; 1; 0; 0; 0; 0; 0; 1] ++ w_get) 16385.
Proof.
  intros cs. destruct (oversized_dropped the_tree cs) as (c & tr & w & H & R & Q).
  exists the_tree, c, tr, w. split; [exact huffman_tree_eq|]. split; [apply hi_ok|]. split; [exact H|]. split; [exact Q|].
  split; [exact R|]. exists [0; 64; 1; 0; 0; 0; 0; 0; 1], 0, 0, 1, w_get. split; [reflexivity|].
  exists [0; 64; 1], [0; 0; 0; 1], 0. repeat split; auto; try lia. now apply all_bytesb_ok.
Qed.

(** C40: false.  A request followed by the end of the stream is not handled. *)
Theorem C40_closing_client_refuted : forall T cs, exists c tr w,
  session unit hi cs T eq 0 tt any (Some DiscardConnection) c tr w /\
  received tr = w_hello ++ w_get /\ requests tr = [] /\ delivered tr = [].
Proof. exact closing_client_ignored. Qed.
Print Assumptions C40_closing_client_refuted.

(** Every complete frame is handled if the server has read it and waits for more. *)
Theorem C40_open_client_partial : forall W app cs T others t0 w0 A c tr w ins o x,
  huffman_tree = Ret T -> answers_ok cs app ->
  session W app cs T others t0 w0 A (Some WantRead) c tr w ->
  received tr = rfc_preface ++ o ++ x -> frames_octets ins o -> Forall (fun f => lenZ (w_payload f) <= 16384) ins ->
  exists more txs outs rest, conversation others app w0 tr (ins ++ more) txs outs [] [] rest /\ partial_frame rest.
Proof.
  intros W app cs T others t0 w0 A c tr w ins o x HT Happ.
  exact (all_handled W app cs T others t0 w0 (is_tree_intro T HT) Happ A c tr w ins o x).
Qed.
Print Assumptions C40_open_client_partial.

(** C41.  [o'] is [o] without the frames of other types. *)
Theorem C41_unknown_frames : forall W app cs T w0 A1 A2 t1 t2 ins o o' rest r1 c1 tr1 w1 r2 c2 tr2 w2,
  Forall (fun f => all_bytes (w_payload f) /\ lenZ (w_payload f) <= 16384) ins ->
  frames_octets ins o -> frames_octets (filter implemented ins) o' ->
  session W app cs T eq t1 w0 A1 r1 c1 tr1 w1 -> session W app cs T eq t2 w0 A2 r2 c2 tr2 w2 ->
  done_with (rfc_preface ++ o ++ rest) r1 tr1 -> done_with (rfc_preface ++ o' ++ rest) r2 tr2 ->
  visible tr1 = visible tr2 /\ queued tr1 = queued tr2 /\ requests tr1 = requests tr2 /\ logged tr1 = logged tr2.
Proof.
  intros W app cs T w0 A1 A2 t1 t2 ins o o' rest r1 c1 tr1 w1 r2 c2 tr2 w2 Hs Ho Ho' H1 H2 D1 D2.
  pose proof (unknown_frames W app cs T w0 A1 A2 t1 t2 ins o o' rest r1 c1 tr1 w1 r2 c2 tr2 w2 Hs Ho Ho' H1 H2 D1 D2) as E.
  split; [exact E|exact (visible_same _ _ E)].
Qed.
Print Assumptions C41_unknown_frames.

Example C41_case : forall T cs, exists c1 tr1 w1 c2 tr2 w2,
  session unit hi cs T eq 0 tt any (Some WantRead) c1 tr1 w1 /\ session unit hi cs T eq 0 tt any (Some WantRead) c2 tr2 w2 /\
  done_with (rfc_preface ++ (w_settings ++ w_ping ++ w_get ++ w_ping) ++ []) (Some WantRead) tr1 /\
  done_with (rfc_preface ++ (w_settings ++ w_get) ++ []) (Some WantRead) tr2 /\ lenZ (requests tr1) = 1.
Proof.
  intros T cs. destruct (pings T cs) as (c1 & tr1 & w1 & H1 & R1 & Q1).
  destruct (exchange T cs) as (c2 & tr2 & w2 & H2 & R2 & _).
  exists c1, tr1, w1, c2, tr2, w2. do 2 (split; [assumption|]). split; [left; split; [auto|exact R1]|].
  split; [left; split; [auto|exact R2]|exact Q1].
Qed.

(** C42: false.  No PING frame is ever sent: the server's frames are DATA, HEADERS and
    SETTINGS (and the GOAWAY of C37). *)
Theorem C42_never_sent_refuted : forall ins txs outs, answered ins txs outs ->
  Forall (fun f => w_type f <> 6) outs.
Proof.
  intros ins txs outs H. apply answered_types in H. eapply Forall_impl; [|exact H]. cbn beta. intros f Hf. lia.
Qed.
Print Assumptions C42_never_sent_refuted.

Theorem C42_ping_refuted : forall T cs, exists c tr w, session unit hi cs T eq 0 tt any (Some WantRead) c tr w /\
  received tr = w_hello ++ w_ping /\ queued tr = o_settings ++ o_ack.
Proof. exact ping_ignored. Qed.
Print Assumptions C42_ping_refuted.

(** C43: false.  The request of C29_case, its block split after one octet, gets a 400. *)
Theorem C43_continuation_refuted : forall T cs, exists c tr w,
  session unit hi cs T eq 0 tt any (Some WantRead) c tr w /\
  received tr = w_hello ++ w_get_split /\ requests tr = [] /\
  logged tr = [([Hdr (str ":method") (str "GET")], 400, 0)].
Proof. exact split_block_refused. Qed.
Print Assumptions C43_continuation_refuted.

(** C44: false.  A client that sets SETTINGS_INITIAL_WINDOW_SIZE to 0 is sent DATA. *)
Theorem C44_window_refuted : forall T cs, exists c tr w x,
  session unit hi cs T eq 0 tt any (Some WantRead) c tr w /\
  received tr = rfc_preface ++ w_no_data ++ w_get /\ delivered tr = x ++ [0; 0; 2; 0; 1; 0; 0; 0; 1; 104; 105].
Proof. exact window_ignored. Qed.
Print Assumptions C44_window_refuted.

(** C45.  Once the transport has reported the end of the stream or a protocol error, the
    call in progress drops the connection; at most a GOAWAY is queued, no handler runs. *)
Theorem C45_end_of_stream : forall W app cs T others t0 w0 A r c tr w a e b,
  session W app cs T others t0 w0 A r c tr w -> tr = a ++ e :: b -> fatal_read e = true ->
  r = Some DiscardConnection /\ requests b = [] /\ logged b = [] /\
  (queued b = [] \/ exists g, goaway_frame g /\ frame_octets g (queued b)).
Proof.
  intros W app cs T others t0 w0 A r c tr w a e b H E Hf.
  destruct (fatal_stops W app cs T others t0 w0 A r c tr w a e b H E Hf) as [Hr Ha]. split; [exact Hr|].
  rewrite <- requests_acts, <- logged_acts, <- queued_acts.
  destruct Ha as [Ha|Ha]; rewrite Ha; repeat split; auto. right. destruct bye_frame as (p & Hp).
  exists (WFrame 7 0 0 p). split; [now split|]. cbn [queued flat_map bye]. now rewrite app_nil_r.
Qed.
Print Assumptions C45_end_of_stream.

(** After a GOAWAY or an erroneous frame [f] no frame is handled, and the server does not
    wait for more; while it waits for the transport it has something to send. *)
Theorem C45_refused_frames : forall W app cs T others t0 w0 A r c tr w ins o f fo x,
  huffman_tree = Ret T -> answers_ok cs app ->
  session W app cs T others t0 w0 A r c tr w ->
  received tr = rfc_preface ++ o ++ fo ++ x -> frames_octets ins o ->
  Forall (fun f => lenZ (w_payload f) <= 16384) (ins ++ [f]) -> frame_octets f fo ->
  (forall txs outs, answered ins txs outs -> refused txs f) ->
  (r <> Some WantRead /\ (r = Some WantWrite -> c_wbuf c <> [])) /\
  (silent r tr \/ exists ins1 more txs outs byes escaped rest, ins = ins1 ++ more /\
     conversation others app w0 tr ins1 txs outs byes escaped rest).
Proof.
  intros W app cs T others t0 w0 A r c tr w ins o f fo x HT Happ H Hr Ho Hs Hf Hrf.
  destruct (refused_stops W app cs T others t0 w0 (is_tree_intro T HT) Happ A r c tr w ins o f fo x H Hr Ho Hs Hf Hrf) as [H1 H2].
  split; [split; [exact H1|]|exact H2]. intros ->. exact (waits_to_write W app cs T others t0 w0 A c tr w H).
Qed.
Print Assumptions C45_refused_frames.

Example C45_case : forall cs, exists T c tr w, huffman_tree = Ret T /\ answers_ok cs hi /\
  session unit hi cs T eq 0 tt any (Some DiscardConnection) c tr w /\
  received tr = rfc_preface ++ w_settings ++ w_goaway ++ w_get /\
  forall txs, refused txs (WFrame 7 0 0 [0; 0; 0; 0; 0; 0; 0; 0]).
Proof.
  intros cs. destruct (goaway_stops the_tree cs) as (c & tr & w & H & R & _).
  exists the_tree, c, tr, w. split; [exact huffman_tree_eq|]. split; [apply hi_ok|]. split; [exact H|]. split; [exact R|].
  intros txs. now apply refused_goaway.
Qed.

(** C46.  Times are in nanoseconds. *)
Theorem C46_timeout : forall W app cs T others t0 w0 A r c tr w now,
  session W app cs T others t0 w0 A r c tr w ->
  has_timed_out now c = true <-> now - last_success t0 tr > 5000000000.
Proof. exact timed_out_iff. Qed.
Print Assumptions C46_timeout.

Example C46_case : forall T cs, exists c tr w, session unit hi cs T eq 0 tt whole (Some WantRead) c tr w /\
  last_success 0 tr = 5 /\ has_timed_out 5000000005 c = false /\ has_timed_out 5000000006 c = true.
Proof.
  intros T cs. destruct (blocked_writes T cs) as (c & tr & w & H & _ & _ & L). exists c, tr, w.
  pose proof (fun now => timed_out_iff _ _ _ _ _ _ _ _ _ _ _ _ now H) as X. rewrite L in X.
  split; [exact H|]. split; [exact L|]. split; [|apply X; lia].
  destruct (has_timed_out 5000000005 c) eqn:E; [|reflexivity]. apply X in E. lia.
Qed.

(** C71 *)
Theorem C71_retried : forall W app cs T others t0 w0 A r c tr w,
  session W app cs T others t0 w0 A r c tr w ->
  forall a t o k b t' o' k' res' d,
    tr = a ++ EvWrite t o k (Error WantReadOrWrite) :: b ++ EvWrite t' o' k' res' :: d ->
    Forall (fun e => is_write e = false) b -> o' = o.
Proof. exact blocked_write_retried. Qed.
Print Assumptions C71_retried.

Example C71_case : forall T cs, exists c tr w, session unit hi cs T eq 0 tt whole (Some WantRead) c tr w /\
  map (fun e => match e with EvWrite t o k _ => (t, lenZ o, lenZ k) | _ => (0, 0, 0) end) (filter is_write tr) =
    [(0, 36, 0); (2, 36, 0); (3, 36, 20); (4, 16, 16); (5, 44, 44)].
Proof. intros T cs. destruct (blocked_writes T cs) as (c & tr & w & H & _ & E & _). exists c, tr, w. auto. Qed.

(** C72: false.  Three kinds of frames make the server read out of bounds ... *)
Theorem C72_undefined_refuted : forall T cs,
  let first x := process unit hi cs T (deliver [octets (w_hello ++ x)]) (fresh_conn 0) tt in
  first [0; 0; 3; 8; 0; 0; 0; 0; 1; 0; 0; 1] = Undef /\ first [0; 0; 4; 1; 37; 0; 0; 0; 1; 0; 0; 0; 0] = Undef /\
  first [0; 0; 1; 1; 5; 0; 0; 0; 1; 255] = Undef.
Proof. intros T cs. exact (conj (short_window_update T cs) (conj (short_priority T cs) (truncated_index T cs))). Qed.
Print Assumptions C72_undefined_refuted.

(** ... and no others do. *)
Theorem C72_only_malformed_partial : forall W app cs T others t0 w0 A r c tr w s,
  huffman_tree = Ret T -> answers_ok cs app ->
  session W app cs T others t0 w0 A r c tr w -> r <> Some DiscardConnection -> scripts_ok s ->
  process W app cs T s c w = Undef ->
  exists ins o f fo txs outs y,
    received tr ++ available (sc_rd s) = rfc_preface ++ o ++ fo ++ y /\
    frames_octets ins o /\ frame_octets f fo /\ Forall (fun f => lenZ (w_payload f) <= 16384) (ins ++ [f]) /\
    answered ins txs outs /\ malformed txs f.
Proof.
  intros W app cs T others t0 w0 A r c tr w s HT Happ HS Hr Hs E.
  exact (undefined_only_if_malformed W app cs T others t0 w0 (is_tree_intro T HT) A r c tr w s HS Hr Hs Happ E).
Qed.
Print Assumptions C72_only_malformed_partial.

(** C73: false.  Header blocks are never split over frames. *)
Theorem C73_frame_size_refuted : forall T cs, exists app c tr w fs, answers_ok cs app /\
  session unit app cs T eq 0 tt any (Some WantWrite) c tr w /\ received tr = w_hello ++ w_get /\
  frames_octets fs (queued tr) /\ ~ Forall (fun f => lenZ (w_payload f) <= 16384) fs.
Proof.
  intros T cs. destruct (some_nat (2 ^ 14) ltac:(discriminate)) as (n & Hn).
  destruct (big_session T cs n) as (c & tr & w & H & R & Q).
  destruct (big_oversized n Hn) as (f & Hf & Hl).
  exists (big n), c, tr, w, [server_settings; WFrame 4 1 0 []; f]. split; [apply big_ok|]. split; [exact H|]. split; [exact R|].
  rewrite Q. split; [exact Hf|]. intros X. rewrite Forall_forall in X.
  assert (Hin : In f [server_settings; WFrame 4 1 0 []; f]) by (right; right; left; reflexivity). specialize (X f Hin). lia.
Qed.
Print Assumptions C73_frame_size_refuted.

(** All other frames the server sends are small. *)
Theorem C73_other_frames_partial : forall ins txs outs, answered ins txs outs ->
  Forall (fun f => w_type f = 1 \/ lenZ (w_payload f) <= 16256) outs.
Proof. exact small_frames. Qed.
Print Assumptions C73_other_frames_partial.

(** C74.  When a request reaches the application, everything queued before has been
    accepted by the transport; only the server's first SETTINGS frame may still wait. *)
Theorem C74_back_pressure : forall W app cs T others t0 w0 r c tr w,
  session W app cs T others t0 w0
    (fun s => Forall any (sc_rd s) /\ Forall (fun x => match snd x with WrPartial k => k <= 0 | _ => True end) (sc_wr s)) r c tr w ->
  forall a rq an b, tr = a ++ EvRequest rq an :: b ->
    delivered a = queued a \/ (frame_octets server_settings (queued a) /\ delivered a = [] /\ requests a = []).
Proof.
  intros W app cs T others t0 w0 r c tr w H a rq an b E.
  destruct (requests_wait W app cs T others t0 w0 r c tr w H a rq an b E) as [X|(X1 & X2 & X3)]; [now left|right].
  split; [|auto]. rewrite X1. exact settings_frame.
Qed.
Print Assumptions C74_back_pressure.

Example C74_case : forall T cs, exists c tr w, session unit hi cs T eq 0 tt whole (Some WantRead) c tr w /\
  exists a b, tr = a ++ EvRequest get_root (Some (Response 200 [] [104; 105])) :: b /\ lenZ (delivered a) = 36.
Proof.
  intros T cs. apply (by_run hi cs T eq 0 tt whole [deliver [octets w_hello; block_read; octets w_get]]); [scripts_ok| |].
  - constructor; [|constructor]. split; [apply Forall_any|repeat constructor].
  - destruct cs; vm_compute; (split; [reflexivity|]); eexists (_ :: _ :: _ :: _ :: _ :: _ :: _ :: []), _; split; reflexivity.
Qed.
