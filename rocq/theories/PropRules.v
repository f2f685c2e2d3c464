(** C100-C105: rules of HTTP/2 for clients; how the server reads. *)
From Verif Require Import Base BaseLemmas SpecInt SpecFrames SpecHpack SpecHpackEnc Huffman HuffmanProofs Http Conn SpecConn SpecFlow SpecRules ConnLemmas ConnRule
  ConnBasic ConnTerm ConnRun ConnSpec ConnMain ConnDet ConnMore ConnUndef ConnLast ConnWit ConnFlow ConnBad RulesProofs ServerMore PropFlow.

(** ** C100.  False in general: frames (other than HEADERS and GOAWAY) that are connection
    errors are handled like frames that break no rule, as long as a SETTINGS frame holds whole
    entries and a WINDOW_UPDATE frame four octets: [corrected f] is what stands in for [f]. *)
Theorem C100_overlooked_refuted : forall W app cs T w0 A1 A2 t1 t2 before f after o o' rest r1 c1 tr1 w1 r2 c2 tr2 w2,
  connection_error before f -> w_type f <> 1 -> w_type f <> 7 ->
  (w_type f = 4 -> Z.testbit (w_flags f) 0 = false -> lenZ (w_payload f) mod 6 = 0) ->
  (w_type f = 8 -> 4 <= lenZ (w_payload f)) ->
  Forall (fun f => all_bytes (w_payload f) /\ lenZ (w_payload f) <= 16384) (before ++ f :: after) ->
  frames_octets (before ++ f :: after) o -> frames_octets (before ++ corrected f ++ after) o' ->
  session W app cs T eq t1 w0 A1 r1 c1 tr1 w1 -> session W app cs T eq t2 w0 A2 r2 c2 tr2 w2 ->
  done_with (rfc_preface ++ o ++ rest) r1 tr1 -> done_with (rfc_preface ++ o' ++ rest) r2 tr2 ->
  visible tr1 = visible tr2 /\ queued tr1 = queued tr2 /\ requests tr1 = requests tr2 /\ logged tr1 = logged tr2.
Proof.
  intros W app cs T w0 A1 A2 t1 t2 before f after o o' rest r1 c1 tr1 w1 r2 c2 tr2 w2 _ H1 H7 H4 H8 Hf Ho Ho' S1 S2 D1 D2.
  assert (Hf' : Forall (fun f => all_bytes (w_payload f) /\ lenZ (w_payload f) <= 16384) (before ++ corrected f ++ after)).
  { apply Forall_app in Hf as [Ha Hf]. apply Forall_cons_iff in Hf as [_ Hb]. repeat (apply Forall_app; split; auto).
    unfold corrected. destruct (_ =? _); repeat constructor. cbn. discriminate. }
  pose proof (alike_frames W app cs T w0 A1 A2 t1 t2 _ _ o o' rest r1 c1 tr1 w1 r2 c2 tr2 w2 Hf Hf' Ho Ho' (corrected_alike before f after H1 H7 H4 H8) S1 S2 D1 D2) as E.
  split; [exact E|exact (visible_same _ _ E)].
Qed.
Print Assumptions C100_overlooked_refuted.

(** Ten of them in a row, and a request that is answered as if they were not there. *)
Definition errors : list wframe :=
  [WFrame 6 0 1 [1; 2; 3]; WFrame 4 0 5 [0; 2; 0; 0; 0; 7]; WFrame 0 1 0 [65]; WFrame 3 0 9 [0]; WFrame 5 4 1 [0; 0; 0; 2];
   WFrame 8 0 0 [0; 0; 0; 0]; WFrame 9 4 7 [130]; WFrame 4 1 0 [1]; WFrame 2 0 0 []; WFrame 8 0 11 [0; 0; 0; 1; 9]].
Definition errors_octets : bytes :=
  [0; 0; 3; 6; 0; 0; 0; 0; 1; 1; 2; 3;  0; 0; 6; 4; 0; 0; 0; 0; 5; 0; 2; 0; 0; 0; 7;  0; 0; 1; 0; 1; 0; 0; 0; 0; 65;
   0; 0; 1; 3; 0; 0; 0; 0; 9; 0;  0; 0; 4; 5; 4; 0; 0; 0; 1; 0; 0; 0; 2;  0; 0; 4; 8; 0; 0; 0; 0; 0; 0; 0; 0; 0;
   0; 0; 1; 9; 4; 0; 0; 0; 7; 130;  0; 0; 1; 4; 1; 0; 0; 0; 0; 1;  0; 0; 0; 2; 0; 0; 0; 0; 0;  0; 0; 5; 8; 0; 0; 0; 0; 11; 0; 0; 0; 1; 9].
Lemma errors_layout : frames_octets (errors ++ [f_get]) (errors_octets ++ w_get).
Proof.
  exists [[0; 0; 3; 6; 0; 0; 0; 0; 1; 1; 2; 3]; [0; 0; 6; 4; 0; 0; 0; 0; 5; 0; 2; 0; 0; 0; 7]; [0; 0; 1; 0; 1; 0; 0; 0; 0; 65];
   [0; 0; 1; 3; 0; 0; 0; 0; 9; 0]; [0; 0; 4; 5; 4; 0; 0; 0; 1; 0; 0; 0; 2]; [0; 0; 4; 8; 0; 0; 0; 0; 0; 0; 0; 0; 0];
   [0; 0; 1; 9; 4; 0; 0; 0; 7; 130]; [0; 0; 1; 4; 1; 0; 0; 0; 0; 1]; [0; 0; 0; 2; 0; 0; 0; 0; 0]; [0; 0; 5; 8; 0; 0; 0; 0; 11; 0; 0; 0; 1; 9]; w_get].
  split; [|reflexivity]. repeat constructor; by_layout.
Qed.
Example C100_case : forall T cs, exists c tr w,
  session unit hi cs T eq 0 tt any (Some WantRead) c tr w /\
  received tr = rfc_preface ++ errors_octets ++ w_get /\ frames_octets (errors ++ [f_get]) (errors_octets ++ w_get) /\
  (forall a f b, errors = a ++ f :: b -> connection_error a f /\ w_type f <> 1 /\ w_type f <> 7 /\
     (w_type f = 4 -> Z.testbit (w_flags f) 0 = false -> lenZ (w_payload f) mod 6 = 0) /\ (w_type f = 8 -> 4 <= lenZ (w_payload f))) /\
  requests tr = [(get_root, Some (Response 200 [] [104; 105]))] /\ delivered tr = queued tr.
Proof.
  intros T cs.
  assert (H : exists c tr w, session unit hi cs T eq 0 tt any (Some WantRead) c tr w /\
    (received tr = rfc_preface ++ errors_octets ++ w_get /\ requests tr = [(get_root, Some (Response 200 [] [104; 105]))] /\ delivered tr = queued tr)).
  { apply (by_run hi cs T eq 0 tt any [deliver [octets (rfc_preface ++ errors_octets ++ w_get)]]); [scripts_ok|apply Forall_any|].
    destruct cs; vm_compute; repeat split. }
  destruct H as (c & tr & w & H & R & Q & D). exists c, tr, w. split; [exact H|]. split; [exact R|]. split; [exact errors_layout|].
  split; [|split; [exact Q|exact D]]. intros a f b E. unfold errors in E.
  destruct a as [|x0 a]; [injection E as <- _|injection E as <- E; destruct a as [|x1 a]; [injection E as <- _|injection E as <- E; destruct a as [|x2 a];
    [injection E as <- _|injection E as <- E; destruct a as [|x3 a]; [injection E as <- _|injection E as <- E; destruct a as [|x4 a];
    [injection E as <- _|injection E as <- E; destruct a as [|x5 a]; [injection E as <- _|injection E as <- E; destruct a as [|x6 a];
    [injection E as <- _|injection E as <- E; destruct a as [|x7 a]; [injection E as <- _|injection E as <- E; destruct a as [|x8 a];
    [injection E as <- _|injection E as <- E; destruct a as [|x9 a]; [injection E as <- _|injection E as <- E; destruct a; discriminate E]]]]]]]]]];
    (split; [|repeat split; cbn; try discriminate; lia]).
  - apply ce_not_settings; [reflexivity|discriminate].
  - apply ce_stream; [now left|discriminate].
  - apply ce_no_stream; [now left|reflexivity].
  - apply ce_reset_size; [reflexivity|discriminate].
  - apply ce_push. reflexivity.
  - apply ce_window_zero; reflexivity.
  - apply ce_continuation; reflexivity.
  - apply ce_settings_ack; [reflexivity..|discriminate].
  - apply ce_no_stream; [right; now left|reflexivity].
  - apply ce_idle; [right; right; now left|discriminate|]. unfold idle.
    match goal with |- forall f, In f ?l -> _ => enough (E : Forall (fun f => w_type f = 1 -> w_stream f < 11) l) by (intros f Hf; exact (proj1 (Forall_forall _ _) E f Hf)) end.
    repeat constructor; discriminate.
Qed.

(** Two are noticed: a SETTINGS frame that does not hold whole entries, and a GOAWAY frame,
    whatever it holds.  After them no frame is handled, and the server does not wait for more. *)
Theorem C100_noticed_partial : forall W app cs T others t0 w0 A r c tr w ins o f fo x,
  huffman_tree = Ret T -> answers_ok cs app ->
  session W app cs T others t0 w0 A r c tr w ->
  received tr = rfc_preface ++ o ++ fo ++ x -> frames_octets ins o ->
  Forall (fun f => lenZ (w_payload f) <= 16384) (ins ++ [f]) -> frame_octets f fo ->
  connection_error ins f ->
  w_type f = 7 \/ (w_type f = 4 /\ Z.testbit (w_flags f) 0 = false /\ lenZ (w_payload f) mod 6 <> 0) ->
  r <> Some WantRead /\
  (silent r tr \/ exists ins1 more txs outs byes escaped rest, ins = ins1 ++ more /\
     conversation others app w0 tr ins1 txs outs byes escaped rest).
Proof.
  intros W app cs T others t0 w0 A r c tr w ins o f fo x HT Happ H Hr Ho Hs Hf _ Hn.
  apply (refused_stops W app cs T others t0 w0 (is_tree_intro T HT) Happ A r c tr w ins o f fo x H Hr Ho Hs Hf).
  intros txs outs _. destruct Hn as [Hn|(H4 & Hb & Hm)]; [now apply refused_goaway|now apply refused_settings].
Qed.
Print Assumptions C100_noticed_partial.

Definition w_odd : bytes := [0; 0; 7; 4; 0; 0; 0; 0; 0; 0; 4; 0; 0; 0; 1; 9].
Example C100_noticed_case : forall cs, exists T c tr w, huffman_tree = Ret T /\ answers_ok cs hi /\
  session unit hi cs T eq 0 tt any (Some DiscardConnection) c tr w /\
  received tr = rfc_preface ++ w_settings ++ w_odd ++ w_get /\ frame_octets (WFrame 4 0 0 [0; 4; 0; 0; 0; 1; 9]) w_odd /\
  connection_error [WFrame 4 0 0 []] (WFrame 4 0 0 [0; 4; 0; 0; 0; 1; 9]) /\ requests tr = [].
Proof.
  intros cs.
  assert (H : forall T, exists c tr w, session unit hi cs T eq 0 tt any (Some DiscardConnection) c tr w /\
    (received tr = rfc_preface ++ w_settings ++ w_odd ++ w_get /\ requests tr = [])).
  { intros T. apply (by_run hi cs T eq 0 tt any [deliver [octets (rfc_preface ++ w_settings ++ w_odd ++ w_get)]]); [scripts_ok|apply Forall_any|].
    destruct cs; vm_compute; repeat split. }
  destruct (H the_tree) as (c & tr & w & HS & R & Q). exists the_tree, c, tr, w. split; [exact huffman_tree_eq|]. split; [apply hi_ok|].
  split; [exact HS|]. split; [exact R|]. split; [by_layout|]. split; [|exact Q]. apply ce_settings_size; [reflexivity..|discriminate].
Qed.

(** ** C101.  False in general: the server never looks at stream identifiers.  Whatever
    streams a client puts on its HEADERS and DATA frames, all that changes is the streams on
    the frames it is sent. *)
Theorem C101_never_looked_at_refuted : forall W app cs T w0 A1 A2 t1 t2 rho ins o o' r1 c1 tr1 w1 r2 c2 tr2 w2,
  (forall s, 0 <= s < 2 ^ 31 -> 0 <= rho s < 2 ^ 31) ->
  Forall (fun f => all_bytes (w_payload f) /\ lenZ (w_payload f) <= 16384) ins ->
  frames_octets ins o -> frames_octets (map (restream rho) ins) o' ->
  session W app cs T eq t1 w0 A1 r1 c1 tr1 w1 -> session W app cs T eq t2 w0 A2 r2 c2 tr2 w2 ->
  done_with (rfc_preface ++ o) r1 tr1 -> done_with (rfc_preface ++ o') r2 tr2 ->
  Forall2 (restreamed rho) (visible tr1) (visible tr2) /\ requests tr1 = requests tr2 /\ logged tr1 = logged tr2.
Proof. exact streams_ignored. Qed.
Print Assumptions C101_never_looked_at_refuted.

(** Two requests, on streams 1 and 3, and both on stream 0, which is for neither. *)
Definition w_get3 : bytes := [0; 0; 2; 1; 5; 0; 0; 0; 3; 130; 132].
Definition w_get0 : bytes := [0; 0; 2; 1; 5; 0; 0; 0; 0; 130; 132].
Definition two_gets : list wframe := [WFrame 4 0 0 []; f_get; WFrame 1 5 3 [130; 132]].
Example C101_case : forall T cs, exists c1 tr1 w1 c2 tr2 w2,
  session unit hi cs T eq 0 tt any (Some WantRead) c1 tr1 w1 /\ session unit hi cs T eq 0 tt any (Some WantRead) c2 tr2 w2 /\
  frames_octets two_gets (w_settings ++ w_get ++ w_get3) /\ frames_octets (map (restream (fun _ => 0)) two_gets) (w_settings ++ w_get0 ++ w_get0) /\
  done_with (rfc_preface ++ w_settings ++ w_get ++ w_get3) (Some WantRead) tr1 /\
  done_with (rfc_preface ++ w_settings ++ w_get0 ++ w_get0) (Some WantRead) tr2 /\
  stream_error [WFrame 4 0 0 []] (restream (fun _ => 0) f_get) /\ lenZ (requests tr2) = 2.
Proof.
  intros T cs.
  assert (H1 : exists c tr w, session unit hi cs T eq 0 tt any (Some WantRead) c tr w /\ received tr = rfc_preface ++ w_settings ++ w_get ++ w_get3).
  { apply (by_run hi cs T eq 0 tt any [deliver [octets (rfc_preface ++ w_settings ++ w_get ++ w_get3)]]); [scripts_ok|apply Forall_any|].
    destruct cs; vm_compute; repeat split. }
  assert (H2 : exists c tr w, session unit hi cs T eq 0 tt any (Some WantRead) c tr w /\
    (received tr = rfc_preface ++ w_settings ++ w_get0 ++ w_get0 /\ lenZ (requests tr) = 2)).
  { apply (by_run hi cs T eq 0 tt any [deliver [octets (rfc_preface ++ w_settings ++ w_get0 ++ w_get0)]]); [scripts_ok|apply Forall_any|].
    destruct cs; vm_compute; repeat split. }
  destruct H1 as (c1 & tr1 & w1 & H1 & R1). destruct H2 as (c2 & tr2 & w2 & H2 & R2 & Q2). exists c1, tr1, w1, c2, tr2, w2.
  split; [exact H1|]. split; [exact H2|].
  split; [exists [w_settings; w_get; w_get3]; split; [|reflexivity]; repeat constructor; by_layout|].
  split; [exists [w_settings; w_get0; w_get0]; split; [|reflexivity]; repeat constructor; by_layout|].
  split; [left; auto|]. split; [left; auto|]. split; [|exact Q2]. split; [reflexivity|]. now left.
Qed.

(** ** C102.  The requests that reach the application are those with a :method and a :path,
    whatever else is wrong with them.  [x] is what follows the frames [ins]. *)
Theorem C102_asked_exactly : forall W app cs T others t0 w0 A c tr w ins o x bs hss st,
  huffman_tree = Ret T -> answers_ok cs app ->
  session W app cs T others t0 w0 A (Some WantRead) c tr w ->
  received tr = rfc_preface ++ o ++ x -> frames_octets ins o -> Forall (fun f => lenZ (w_payload f) <= 16384) ins ->
  blocks_of ins bs -> rfc_blocks server_profile ([], 65536) bs hss st ->
  exists rqs later, asked hss rqs /\ map fst (requests tr) = rqs ++ later /\ (x = [] -> later = []).
Proof.
  intros W app cs T others t0 w0 A c tr w ins o x bs hss st HT.
  exact (requests_asked W app cs T others t0 w0 A c tr w ins o x bs hss st (is_tree_intro T HT)).
Qed.
Print Assumptions C102_asked_exactly.

(** So requests without these two never do ... *)
Theorem C102_incomplete_partial : forall W app cs T others t0 w0 A r c tr w,
  huffman_tree = Ret T -> answers_ok cs app -> session W app cs T others t0 w0 A r c tr w ->
  silent r tr \/
  exists ins txs outs byes escaped rest, conversation others app w0 tr ins txs outs byes escaped rest /\
    forall tx, In tx txs -> (no_field (tx_fields tx) (str ":method") \/ no_field (tx_fields tx) (str ":path")) ->
      tx_app tx = [] /\ rs_status (tx_sent tx) = 400.
Proof.
  intros W app cs T others t0 w0 A r c tr w HT Happ H.
  destruct (session_conversation W app cs T others t0 w0 (is_tree_intro T HT) Happ A r c tr w H)
    as [Hs|(ins & txs & outs & byes & esc & rest & Hc & _)]; [now left|right].
  exists ins, txs, outs, byes, esc, rest. split; [exact Hc|]. intros tx Hin Hn.
  pose proof (answered_each _ _ _ (conv_answered _ _ _ _ _ _ _ _ _ _ Hc)) as Hsv. rewrite Forall_forall in Hsv. specialize (Hsv tx Hin). cbn beta in Hsv.
  remember (tx_fields tx) as hs. remember (tx_app tx) as a. remember (tx_sent tx) as rs. destruct Hsv as [_|m p rp fields Hm Hp _]; [auto|].
  exfalso. destruct Hn as [Hn|Hn]; [destruct Hm as (u & v & -> & _)|destruct Hp as (u & v & -> & _)]; apply Forall_app in Hn as [_ Hn];
    apply Forall_cons_iff in Hn as [Hn _]; now apply Hn.
Qed.
Print Assumptions C102_incomplete_partial.

(** ... and others do, though malformed: without :scheme, with an upper-case name, with two
    paths, with a field that belongs to the connection, with a pseudo-field at the end. *)
Definition bad_requests : list (list header) :=
  [[Hdr (str ":method") (str "GET"); Hdr (str ":path") (str "/")];
   [Hdr (str ":method") (str "GET"); Hdr (str ":scheme") (str "http"); Hdr (str ":path") (str "/"); Hdr (str "A") (str "")];
   [Hdr (str ":method") (str "GET"); Hdr (str ":scheme") (str "http"); Hdr (str ":path") (str "/"); Hdr (str ":path") (str "/index.html")];
   [Hdr (str ":method") (str "GET"); Hdr (str ":scheme") (str "http"); Hdr (str ":path") (str "/"); Hdr (str "transfer-encoding") (str "")];
   [Hdr (str ":method") (str "GET"); Hdr (str ":scheme") (str "http"); Hdr (str "accept") (str ""); Hdr (str ":path") (str "/")]].
Definition w_bad_requests : bytes :=
  [0; 0; 2; 1; 5; 0; 0; 0; 1; 130; 132;  0; 0; 7; 1; 5; 0; 0; 0; 3; 130; 134; 132; 0; 1; 65; 0;
   0; 0; 4; 1; 5; 0; 0; 0; 5; 130; 134; 132; 133;  0; 0; 4; 1; 5; 0; 0; 0; 7; 130; 134; 132; 185;  0; 0; 4; 1; 5; 0; 0; 0; 9; 130; 134; 147; 132].
Theorem C102_malformed_refuted : forall T cs, exists c tr w,
  session unit hi cs T eq 0 tt any (Some WantRead) c tr w /\ received tr = rfc_preface ++ w_settings ++ w_bad_requests /\
  map (fun x => rq_headers (fst x)) (requests tr) = bad_requests /\ Forall (fun hs => ~ well_formed_request hs) bad_requests.
Proof.
  intros T cs.
  assert (H : exists c tr w, session unit hi cs T eq 0 tt any (Some WantRead) c tr w /\
    (received tr = rfc_preface ++ w_settings ++ w_bad_requests /\ map (fun x => rq_headers (fst x)) (requests tr) = bad_requests)).
  { apply (by_run hi cs T eq 0 tt any [Scripts [(0, HsOk)] [octets (rfc_preface ++ w_settings ++ w_bad_requests)] (repeat accept 9)]); [scripts_ok|apply Forall_any|].
    destruct cs; vm_compute; repeat split. }
  destruct H as (c & tr & w & H & R & Q). exists c, tr, w. split; [exact H|]. split; [exact R|]. split; [exact Q|].
  unfold bad_requests. repeat constructor; intros [H1 H2 H3 H4 H5 H6 H7 H8 H9].
  - destruct (H4 (str ":scheme")) as (v & Hv); [cbn; auto|]. cbn in Hv. decompose [or] Hv; [discriminate..|easy].
  - destruct (H6 (Hdr (str "A") (str ""))) as [_ K]; [cbn; auto 6|intros (r & K); discriminate K|]. apply Forall_inv in K. destruct K as (_ & K & _). apply K. cbn. lia.
  - specialize (H3 (Hdr (str ":path") (str "/")) [Hdr (str ":method") (str "GET"); Hdr (str ":scheme") (str "http")] [Hdr (str ":path") (str "/index.html")] eq_refl).
    assert (Ep : pseudo (Hdr (str ":path") (str "/"))) by (eexists; reflexivity). specialize (H3 Ep). cbn [Datatypes.app h_name] in H3.
    do 2 apply Forall_inv_tail in H3. apply Forall_inv in H3. now apply H3.
  - apply (H8 (Hdr (str "transfer-encoding") (str ""))); cbn; auto 8.
  - destruct H1 as (ps & rs & E & Hp & Hr).
    assert (N : ~ pseudo (Hdr (str "accept") (str ""))) by (intros (q & K); discriminate K).
    assert (P : pseudo (Hdr (str ":path") (str "/"))) by (eexists; reflexivity).
    destruct ps as [|x0 ps]; cbn [Datatypes.app] in E.
    + rewrite <- E in Hr. do 3 apply Forall_inv_tail in Hr. apply Forall_inv in Hr. now apply Hr.
    + injection E as <- E. destruct ps as [|x1 ps]; cbn [Datatypes.app] in E; [rewrite <- E in Hr; do 2 apply Forall_inv_tail in Hr; apply Forall_inv in Hr; now apply Hr|].
      injection E as <- E. destruct ps as [|x2 ps]; cbn [Datatypes.app] in E; [rewrite <- E in Hr; apply Forall_inv_tail in Hr; apply Forall_inv in Hr; now apply Hr|].
      injection E as <- E. do 2 apply Forall_inv_tail in Hp. apply Forall_inv in Hp. now apply N.
Qed.
Print Assumptions C102_malformed_refuted.

(** The run above meets the hypotheses of [C102_asked_exactly], with the first request. *)
Example C102_case : forall cs, exists T c tr w rest hss st, huffman_tree = Ret T /\ answers_ok cs hi /\
  session unit hi cs T eq 0 tt any (Some WantRead) c tr w /\
  received tr = rfc_preface ++ (w_settings ++ w_get) ++ rest /\ frames_octets [WFrame 4 0 0 []; f_get] (w_settings ++ w_get) /\
  blocks_of [WFrame 4 0 0 []; f_get] [[130; 132]] /\ rfc_blocks server_profile ([], 65536) [[130; 132]] hss st /\
  asked hss [get_root] /\ lenZ (requests tr) = 5.
Proof.
  intros cs.
  assert (H : forall T, exists c tr w, session unit hi cs T eq 0 tt any (Some WantRead) c tr w /\
    (received tr = rfc_preface ++ w_settings ++ w_bad_requests /\ lenZ (requests tr) = 5)).
  { intros T. apply (by_run hi cs T eq 0 tt any [Scripts [(0, HsOk)] [octets (rfc_preface ++ w_settings ++ w_bad_requests)] (repeat accept 9)]); [scripts_ok|apply Forall_any|].
    destruct cs; vm_compute; repeat split. }
  destruct (H the_tree) as (c & tr & w & HS & R & Q).
  exists the_tree, c, tr, w, (skipn 11 w_bad_requests), [[Hdr (str ":method") (str "GET"); Hdr (str ":path") (str "/")]], ([], 65536).
  split; [exact huffman_tree_eq|]. split; [apply hi_ok|]. split; [exact HS|]. split; [rewrite R; reflexivity|]. split; [exact get_frames|].
  split; [repeat constructor; exists [], []; repeat split|]. split; [|split; [|exact Q]].
  - econstructor; [|constructor].
    apply (block_cons server_profile _ [130] [Hdr (str ":method") (str "GET")] ([], 65536) [132] [Hdr (str ":path") (str "/")]).
    + apply repr_indexed with 2; [lia| |reflexivity]. split; [apply (int_short 7 130); [split; lia|reflexivity]|]. split; [discriminate|reflexivity].
    + apply (block_cons server_profile _ [132] [Hdr (str ":path") (str "/")] ([], 65536) [] []); [|constructor].
      apply repr_indexed with 4; [lia| |reflexivity]. split; [apply (int_short 7 132); [split; lia|reflexivity]|]. split; [discriminate|reflexivity].
  - apply asked_more; [| |constructor].
    + exists [], [Hdr (str ":path") (str "/")]. split; [reflexivity|constructor].
    + exists [Hdr (str ":method") (str "GET")], []. split; [reflexivity|]. repeat constructor. discriminate.
Qed.

(** ** C103.  The server gives no credit for request bodies: a client that keeps within what it
    was granted can send 65535 octets of DATA in the whole life of the connection, and no more,
    on all its streams together.  [h] is the order in which the frames pass. *)
Theorem C103_no_credit_refuted : forall W app cs T others t0 w0 A r c tr w,
  huffman_tree = Ret T -> answers_ok cs app -> session W app cs T others t0 w0 A r c tr w ->
  silent r tr \/
  exists ins txs outs byes escaped rest, conversation others app w0 tr ins txs outs byes escaped rest /\
    Forall (fun f => w_type f <> 8) (server_settings :: outs ++ byes) /\
    forall h, by_server h = server_settings :: outs ++ byes -> client_heeds h -> data_all (by_client h) <= 65535.
Proof.
  intros W app cs T others t0 w0 A r c tr w HT Happ H.
  destruct (session_conversation W app cs T others t0 w0 (is_tree_intro T HT) Happ A r c tr w H)
    as [Hs|(ins & txs & outs & byes & esc & rest & Hc & Hb & _)]; [now left|right].
  pose proof (server_frames ins txs outs byes (conv_answered _ _ _ _ _ _ _ _ _ _ Hc) Hb) as Hf.
  exists ins, txs, outs, byes, esc, rest. split; [exact Hc|]. split.
  - constructor; [discriminate|]. eapply Forall_impl; [|exact Hf]. now intros f [].
  - intros h Es. exact (proj1 (uploads h _ Es Hf)).
Qed.
Print Assumptions C103_no_credit_refuted.

(** Partial: so much it can send. *)
Theorem C103_small_uploads_partial : forall W app cs T others t0 w0 A r c tr w,
  huffman_tree = Ret T -> answers_ok cs app -> session W app cs T others t0 w0 A r c tr w ->
  silent r tr \/
  exists ins txs outs byes escaped rest, conversation others app w0 tr ins txs outs byes escaped rest /\
    forall h, by_client h = ins -> by_server h = server_settings :: outs ++ byes -> data_all ins <= 65535 -> client_heeds h.
Proof.
  intros W app cs T others t0 w0 A r c tr w HT Happ H.
  destruct (session_conversation W app cs T others t0 w0 (is_tree_intro T HT) Happ A r c tr w H)
    as [Hs|(ins & txs & outs & byes & esc & rest & Hc & Hb & _)]; [now left|right].
  pose proof (server_frames ins txs outs byes (conv_answered _ _ _ _ _ _ _ _ _ _ Hc) Hb) as Hf.
  exists ins, txs, outs, byes, esc, rest. split; [exact Hc|]. intros h <- Es. exact (proj2 (uploads h _ Es Hf)).
Qed.
Print Assumptions C103_small_uploads_partial.

(** A body of 20000 octets in two frames is within the windows; four of them are not. *)
Definition an_upload : list passed :=
  [ByServer server_settings; ByClient (WFrame 1 4 1 [131; 132]); ByClient (WFrame 0 0 1 (repeat 65 (Z.to_nat 10000))); ByClient (WFrame 0 1 1 (repeat 66 (Z.to_nat 10000)))].
Example C103_case : data_all (by_client an_upload) = 20000 /\ client_heeds an_upload /\
  upload_window 1 an_upload = 45535 /\ upload_connection_window an_upload = 45535 /\ ~ client_heeds (an_upload ++ tl an_upload ++ tl an_upload ++ tl an_upload).
Proof.
  assert (E : data_all (by_client an_upload) = 20000) by (vm_compute; reflexivity).
  split; [exact E|]. split; [apply (uploads an_upload [] eq_refl (Forall_nil _)); rewrite E; lia|]. split; [vm_compute; reflexivity|].
  split; [vm_compute; reflexivity|]. intros H. apply (uploads (an_upload ++ tl an_upload ++ tl an_upload ++ tl an_upload) [] eq_refl (Forall_nil _)) in H. vm_compute in H. now apply H.
Qed.

(** ** C104.  A call says that it waits for the client only when the transport has nothing
    left to read: either the handshake is not over and nothing was done at all, or the call
    has read until a read gave nothing. *)
Theorem C104_read_until_empty : forall W app cs T others t0 w0 A r c tr w s c' ev w',
  session W app cs T others t0 w0 A r c tr w -> r <> Some DiscardConnection -> scripts_ok s ->
  process W app cs T s c w = Ret (WantRead, c', ev, w') ->
  tr ++ ev = [] \/ drained (sc_rd s) (received ev).
Proof.
  intros W app cs T others t0 w0 A r c tr w s c' ev w' H Hr Hs E.
  destruct (waiting_drained W app cs T others t0 w0 A r c tr w s c' ev w' H Hs E) as [[Hh ->]|K]; [left|now right].
  destruct (proj1 (session_young _ _ _ _ _ _ _ _ _ _ _ _ H) Hr) as [Hb _ _ _ _]. now destruct (Hb Hh) as (-> & _).
Qed.
Print Assumptions C104_read_until_empty.

(** A call that reads a request, answers it, reads another and finds nothing more. *)
Definition two_reads : scripts := Scripts [] [octets w_get; octets w_get3; block_read] [accept; accept; accept].
Example C104_case : forall T cs, exists c tr w c' ev w',
  session unit hi cs T eq 0 tt any (Some WantRead) c tr w /\ scripts_ok two_reads /\
  process unit hi cs T two_reads c w = Ret (WantRead, c', ev, w') /\ received ev = w_get ++ w_get3 /\ lenZ (requests ev) = 2.
Proof.
  intros T cs.
  assert (H : exists c tr w, session unit hi cs T eq 0 tt any (Some WantRead) c tr w /\
    match process unit hi cs T two_reads c w with
    | Ret (WantRead, c', ev, w') => received ev = w_get ++ w_get3 /\ lenZ (requests ev) = 2 | _ => False end).
  { apply (by_run hi cs T eq 0 tt any [deliver [octets (rfc_preface ++ w_settings)]]); [scripts_ok|apply Forall_any|]. destruct cs; vm_compute; repeat split. }
  destruct H as (c & tr & w & H & E). destruct (process unit hi cs T two_reads c w) as [[[[r c'] ev] w']| | |] eqn:EP; try easy.
  destruct r; try easy. exists c, tr, w, c', ev, w'. split; [exact H|]. split; [now apply scripts_okb|]. auto.
Qed.

(** ** C105.  False in general: a handler's own content-length fields are sent as they are,
    and if there is a body the server adds another. *)
Theorem C105_own_length_refuted : forall W app cs T others t0 w0 A r c tr w,
  huffman_tree = Ret T -> answers_ok cs app -> session W app cs T others t0 w0 A r c tr w ->
  silent r tr \/
  exists ins txs outs byes escaped rest, conversation others app w0 tr ins txs outs byes escaped rest /\
    forall tx rq h, In tx txs -> tx_app tx = [(rq, Some h)] ->
      rs_body (tx_sent tx) = rs_body h /\
      (rs_body h = [] -> lengths (rs_headers (tx_sent tx)) = lengths (rs_headers h)) /\
      (rs_body h <> [] -> exists n, decimal n (lenZ (rs_body h)) /\ lengths (rs_headers (tx_sent tx)) = lengths (rs_headers h) ++ [n]).
Proof.
  intros W app cs T others t0 w0 A r c tr w HT Happ H.
  destruct (session_conversation W app cs T others t0 w0 (is_tree_intro T HT) Happ A r c tr w H)
    as [Hs|(ins & txs & outs & byes & esc & rest & Hc & _)]; [now left|right].
  exists ins, txs, outs, byes, esc, rest. split; [exact Hc|]. intros tx rq h Hin Ha.
  pose proof (answered_each _ _ _ (conv_answered _ _ _ _ _ _ _ _ _ _ Hc)) as Hsv. rewrite Forall_forall in Hsv. specialize (Hsv tx Hin). cbn beta in Hsv.
  rewrite Ha in Hsv. inversion Hsv as [|m p r' fields _ _ Hr E1 E2]. subst. split; [reflexivity|]. exact (sent_lengths _ _ Hr).
Qed.
Print Assumptions C105_own_length_refuted.

(** The handler says 7, the body has two octets. *)
Definition seven (_ : request) (w : unit) : unit * app_answer := (w, Answers (Response 200 [Hdr (str "content-length") (str "7")] (str "hi"))).
Example C105_case : forall cs, exists T c tr w, huffman_tree = Ret T /\ answers_ok cs seven /\
  session unit seven cs T eq 0 tt any (Some WantRead) c tr w /\ ~ silent (Some WantRead) tr /\
  requests tr = [(get_root, Some (Response 200 [Hdr (str "content-length") (str "7")] (str "hi")))].
Proof.
  intros cs.
  assert (H : forall T, exists c tr w, session unit seven cs T eq 0 tt any (Some WantRead) c tr w /\
    requests tr = [(get_root, Some (Response 200 [Hdr (str "content-length") (str "7")] (str "hi")))]).
  { intros T. apply (by_run seven cs T eq 0 tt any [deliver [octets (w_hello ++ w_get)]]); [scripts_ok|apply Forall_any|].
    destruct cs; vm_compute; repeat split. }
  destruct (H the_tree) as (c & tr & w & HS & Q). exists the_tree, c, tr, w. split; [exact huffman_tree_eq|].
  split; [|split; [exact HS|split; [|exact Q]]].
  - intros rq w1 w2 r E. injection E as _ <-. split; [cbn; lia|]. split; [reflexivity|]. repeat constructor; cbn; lia.
  - intros (_ & K & _). now rewrite Q in K.
Qed.

From Verif Require Import FileSys SpecFiles App SpecProgram Poller Server SpecServer ServerProofs PropApp PropServer PropServer2 PropProgram.
(** The shipped program sets it only in answers to HEAD requests; otherwise it is the size
    of the body that follows. *)
Theorem C105_program_partial : forall linux listener page a cs T k0 w0 ok A pending s e,
  huffman_tree = Ret T -> setting listener k0 -> reached linux listener world (main_app page a) cs T k0 w0 ok A pending s ->
  args_ok a (w_os w0) -> files_fit page (w_os w0) -> anyone world s e ->
  silent (e_result e) (e_trace e) \/
  exists ins txs outs byes, answered ins txs outs /\ requests (e_trace e) = concat (map tx_app txs) /\
    frames_octets (server_settings :: outs ++ byes) (queued (e_trace e)) /\
    forall tx, In tx txs ->
      (rs_body (tx_sent tx) <> [] -> exists n, decimal n (lenZ (rs_body (tx_sent tx))) /\ lengths (rs_headers (tx_sent tx)) = [n]) /\
      (rs_body (tx_sent tx) = [] -> lengths (rs_headers (tx_sent tx)) = [] \/
         exists rq h l io b n, tx_app tx = [(rq, Some h)] /\ rq_method rq = HEAD /\ os_fs (w_os w0) l = Some (EFile true io b) /\
           decimal n (lenZ b) /\ lengths (rs_headers (tx_sent tx)) = [n]).
Proof.
  intros linux listener page a cs T k0 w0 ok A pending s e HT Hs H Ha Hf He.
  destruct (C81_octets_partial linux listener page a cs T k0 w0 ok A pending s e HT Hs H Ha Hf He)
    as [K|(ins & txs & outs & byes & rest & _ & HA & HB & HR & _ & _ & HQ & _)]; [now left|right].
  exists ins, txs, outs, byes. split; [exact HA|]. split; [exact HR|]. split; [exact HQ|]. intros tx Hin.
  pose proof (answered_each _ _ _ HA) as Hsv. rewrite Forall_forall in Hsv, HB. specialize (Hsv tx Hin). cbn beta in Hsv. specialize (HB tx Hin). unfold served_by in HB.
  destruct Hsv as [_|m p r fields _ _ Hr].
  - split; [easy|]. now left.
  - destruct (HB _ _ (or_introl eq_refl)) as (r' & [= <-] & P). cbn [rq_path rq_method] in P. cbn [rs_body rs_headers].
    destruct (program_lengths _ _ _ _ _ _ _ P) as [E|(E & Em & l & io & b & n & Hl & Hn & E')]; destruct (sent_lengths _ _ Hr) as [H1 H2].
    + split; intros Hb; [destruct (H2 Hb) as (n & Hn & ->); rewrite E; exists n; split; [exact Hn|reflexivity]|left; rewrite (H1 Hb); exact E].
    + split; intros Hb; [now rewrite E in Hb|right]. exists (Request m p (tx_fields tx)), r, l, io, b, n. rewrite (H1 Hb). auto.
Qed.
Print Assumptions C105_program_partial.

(** A client asks for a file and, with HEAD, for its length. *)
Definition w_head (stream : Z) (p : bytes) : bytes := [0; 0; 8 + lenZ p; 1; 5; 0; 0; 0; stream; 2; 4] ++ HEAD ++ [4; lenZ p] ++ p.
Definition head_visit : list iteration :=
  [at_time 0 [arrives 4]; at_time 0 [sends 4 (w_hello ++ get 1 (str "/static/a.txt") ++ w_head 3 (str "/static/a.txt"))]].
Example C105_program_case : forall linux, exists s e, huffman_tree = Ret the_tree /\
  reached linux 3 world (main_app short_page some_args) true the_tree k_std a_world true enough_resources [] s /\
  args_ok some_args (w_os a_world) /\ files_fit short_page (w_os a_world) /\ conn_at world s 4 e /\
  map (fun x => (rq_method (fst x), option_map (fun r => (lengths (rs_headers r), rs_body r)) (snd x))) (requests (e_trace e)) =
    [(GET, Some ([], str "text")); (HEAD, Some ([str "4"], []))].
Proof.
  intros linux.
  destruct (by_reached (linux := linux) (app := main_app short_page some_args) (cs := true) (T := the_tree) (w0 := a_world) head_visit
    (fun s => match mget 4 (sv_conns world s) with Some e =>
       map (fun x => (rq_method (fst x), option_map (fun r => (lengths (rs_headers r), rs_body r)) (snd x))) (requests (e_trace e)) =
         [(GET, Some ([], str "text")); (HEAD, Some ([str "4"], []))] | None => False end)) as (s & H & K).
  - destruct linux; vm_compute; reflexivity.
  - apply iterations_ok. vm_compute. reflexivity.
  - destruct (mget 4 (sv_conns world s)) as [e|] eqn:E; [|destruct K]. exists s, e. split; [exact huffman_tree_eq|]. split; [exact H|].
    split; [exact some_args_ok|]. split; [exact short_fit|]. split; [exact E|exact K].
Qed.
