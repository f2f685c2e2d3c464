(** C35, C43, C44 and C72: what the server makes of long inputs, split header blocks, flow control and malformed frames. *)
From Verif Require Import Base BaseLemmas SpecInt SpecFrames SpecHpack SpecHpackEnc Huffman HuffmanProofs Http Conn SpecConn SpecFlow ConnLemmas ConnRule
  ConnBasic ConnTerm ConnRun ConnSpec ConnMain ConnDet ConnMore ConnUndef ConnLast ConnWit ConnFlow ConnBad.

(** ** C43.  A split header block is handled like its first part alone; the CONTINUATION
    frames make no difference.  Partial: that is how the unsplit block is handled only if the
    other parts are empty ([C43_continuation_refuted]). *)
Theorem C43_first_part_partial : forall W app cs T w0 A1 A2 t1 t2 a b s first others fs f o o' rest r1 c1 tr1 w1 r2 c2 tr2 w2,
  split_block s first others fs -> whole_block s first f ->
  Forall (fun f => all_bytes (w_payload f) /\ lenZ (w_payload f) <= 16384) (a ++ fs ++ b) ->
  Forall (fun f => all_bytes (w_payload f) /\ lenZ (w_payload f) <= 16384) (a ++ f :: b) ->
  frames_octets (a ++ fs ++ b) o -> frames_octets (a ++ f :: b) o' ->
  session W app cs T eq t1 w0 A1 r1 c1 tr1 w1 -> session W app cs T eq t2 w0 A2 r2 c2 tr2 w2 ->
  done_with (rfc_preface ++ o ++ rest) r1 tr1 -> done_with (rfc_preface ++ o' ++ rest) r2 tr2 ->
  visible tr1 = visible tr2 /\ queued tr1 = queued tr2 /\ requests tr1 = requests tr2 /\ logged tr1 = logged tr2.
Proof.
  intros W app cs T w0 A1 A2 t1 t2 a b s first others fs f o o' rest r1 c1 tr1 w1 r2 c2 tr2 w2 Hs Hw H H' Ho Ho' S1 S2 D1 D2.
  pose proof (alike_frames W app cs T w0 A2 A1 t2 t1 _ _ o' o rest r2 c2 tr2 w2 r1 c1 tr1 w1 H' H Ho' Ho (split_alike s first others fs f a b Hs Hw) S2 S1 D2 D1) as E.
  symmetry in E. split; [exact E|exact (visible_same _ _ E)].
Qed.
Print Assumptions C43_first_part_partial.

(** GET / in one frame, and with an empty CONTINUATION frame after it. *)
Definition f_get : wframe := WFrame 1 5 1 [130; 132].
Definition f_get_split : list wframe := [WFrame 1 1 1 [130; 132]; WFrame 9 4 1 []].
Definition w_get_cont : bytes := [0; 0; 2; 1; 1; 0; 0; 0; 1; 130; 132; 0; 0; 0; 9; 4; 0; 0; 0; 1].
Ltac by_layout := match goal with |- frame_octets ?f ?o => exists (firstn 9 o); split; [reflexivity|];
  exists (firstn 3 o), (firstn 4 (skipn 5 o)), 0; repeat split; auto; try (repeat constructor; lia); cbn; lia end.
Lemma get_frames : frames_octets ([WFrame 4 0 0 []] ++ f_get :: []) (w_settings ++ w_get).
Proof.
  exists [w_settings; w_get]. split; [|reflexivity]. repeat constructor; by_layout.
Qed.
Lemma get_split_frames : frames_octets ([WFrame 4 0 0 []] ++ f_get_split ++ []) (w_settings ++ w_get_cont).
Proof.
  exists [w_settings; firstn 11 w_get_cont; skipn 11 w_get_cont]. split; [|reflexivity]. repeat constructor; by_layout.
Qed.
Example C43_case : forall T cs, exists c1 tr1 w1 c2 tr2 w2,
  session unit hi cs T eq 0 tt any (Some WantRead) c1 tr1 w1 /\ session unit hi cs T eq 0 tt any (Some WantRead) c2 tr2 w2 /\
  split_block 1 [130; 132] [] f_get_split /\ whole_block 1 [130; 132] f_get /\
  done_with (rfc_preface ++ (w_settings ++ w_get_cont) ++ []) (Some WantRead) tr1 /\
  done_with (rfc_preface ++ (w_settings ++ w_get) ++ []) (Some WantRead) tr2 /\ lenZ (requests tr1) = 1.
Proof.
  intros T cs.
  assert (H : exists c tr w, session unit hi cs T eq 0 tt any (Some WantRead) c tr w /\
    received tr = rfc_preface ++ w_settings ++ w_get_cont /\ lenZ (requests tr) = 1).
  { apply (by_run hi cs T eq 0 tt any [deliver [octets (rfc_preface ++ w_settings ++ w_get_cont)]]); [scripts_ok|apply Forall_any|].
    destruct cs; vm_compute; repeat split. }
  destruct H as (c1 & tr1 & w1 & H1 & R1 & Q1). destruct (exchange T cs) as (c2 & tr2 & w2 & H2 & R2 & _).
  exists c1, tr1, w1, c2, tr2, w2. do 2 (split; [assumption|]).
  split; [apply (split_frames _ _ _ 1 [130; 132] [WFrame 9 4 1 []]); [reflexivity..| |now apply continued_last]; now exists [], []|].
  split; [apply (whole_frame _ _ 5 [130; 132]); [reflexivity..|]; now exists [], []|].
  split; [left; split; [auto|exact R1]|]. split; [left; split; [auto|exact R2]|exact Q1].
Qed.

(** ** C44.  False in general: what the client says about windows never matters.  Two
    clients that differ in nothing but window updates, settings, priorities and the like are
    sent the same. *)
Theorem C44_never_heeded_refuted : forall W app cs T w0 A1 A2 t1 t2 ins ins' o o' rest r1 c1 tr1 w1 r2 c2 tr2 w2,
  all_alike ins ins' ->
  Forall (fun f => all_bytes (w_payload f) /\ lenZ (w_payload f) <= 16384) ins ->
  Forall (fun f => all_bytes (w_payload f) /\ lenZ (w_payload f) <= 16384) ins' ->
  frames_octets ins o -> frames_octets ins' o' ->
  session W app cs T eq t1 w0 A1 r1 c1 tr1 w1 -> session W app cs T eq t2 w0 A2 r2 c2 tr2 w2 ->
  done_with (rfc_preface ++ o ++ rest) r1 tr1 -> done_with (rfc_preface ++ o' ++ rest) r2 tr2 ->
  visible tr1 = visible tr2 /\ queued tr1 = queued tr2.
Proof.
  intros W app cs T w0 A1 A2 t1 t2 ins ins' o o' rest r1 c1 tr1 w1 r2 c2 tr2 w2 Ha H H' Ho Ho' S1 S2 D1 D2.
  pose proof (alike_frames W app cs T w0 A1 A2 t1 t2 _ _ o o' rest r1 c1 tr1 w1 r2 c2 tr2 w2 H H' Ho Ho' Ha S1 S2 D1 D2) as E.
  split; [exact E|exact (proj1 (visible_same _ _ E))].
Qed.
Print Assumptions C44_never_heeded_refuted.

(** A client that allows no DATA, and one that allows them. *)
Example C44_never_heeded_case : forall T cs, exists c1 tr1 w1 c2 tr2 w2,
  session unit hi cs T eq 0 tt any (Some WantRead) c1 tr1 w1 /\ session unit hi cs T eq 0 tt any (Some WantRead) c2 tr2 w2 /\
  all_alike [WFrame 4 0 0 [0; 4; 0; 0; 0; 0]; f_get] [WFrame 4 0 0 []; f_get] /\
  initial_size [WFrame 4 0 0 [0; 4; 0; 0; 0; 0]; f_get] = 0 /\ initial_size [WFrame 4 0 0 []; f_get] = 65535 /\
  done_with (rfc_preface ++ (w_no_data ++ w_get) ++ []) (Some WantRead) tr1 /\
  done_with (rfc_preface ++ (w_settings ++ w_get) ++ []) (Some WantRead) tr2 /\ lenZ (delivered tr1) = 80.
Proof.
  intros T cs.
  assert (H : exists c tr w, session unit hi cs T eq 0 tt any (Some WantRead) c tr w /\
  received tr = rfc_preface ++ w_no_data ++ w_get /\ lenZ (delivered tr) = 80).
  { apply (by_run hi cs T eq 0 tt any [deliver [octets (rfc_preface ++ w_no_data ++ w_get)]]); [scripts_ok|apply Forall_any|].
    destruct cs; vm_compute; repeat split. }
  destruct H as (c1 & tr1 & w1 & H1 & R1 & Q1). destruct (exchange T cs) as (c2 & tr2 & w2 & H2 & R2 & _).
  exists c1, tr1, w1, c2, tr2, w2. do 2 (split; [assumption|]).
  split; [apply all_alike_cons; [now apply alike_settings|]; apply all_alike_cons; [apply alike_same|constructor]|].
  split; [reflexivity|]. split; [reflexivity|].
  split; [left; split; [auto|exact R1]|]. split; [left; split; [auto|exact R2]|exact Q1].
Qed.

(** What is sent is the bodies, on the streams they belong to, so the windows of a client
    that starts with the usual sizes are honoured as long as all bodies fit.  [h]: the frames
    of both sides in whatever order they pass. *)
Theorem C44_small_bodies_partial : forall W app cs T others t0 w0 A r c tr w,
  huffman_tree = Ret T -> answers_ok cs app ->
  session W app cs T others t0 w0 A r c tr w ->
  silent r tr \/
  exists ins txs outs byes escaped rest,
    conversation others app w0 tr ins txs outs byes escaped rest /\
    data_all outs = bodies_all txs /\ (forall s, data_on s outs = bodies_on s ins txs) /\
    forall k h, by_client h = ins -> by_server h = server_settings :: outs ++ byes ->
      k <= 65535 -> Forall (fun f => Forall (fun v => k <= v) (initial_sizes f)) ins ->
      (forall s, bodies_on s ins txs <= k) -> bodies_all txs <= 65535 -> windows_honoured h.
Proof.
  intros W app cs T others t0 w0 A r c tr w HT Happ H.
  destruct (session_conversation W app cs T others t0 w0 (is_tree_intro T HT) Happ A r c tr w H)
    as [Hs|(ins & txs & outs & byes & esc & rest & Hc & Hb & _)]; [now left|right].
  pose proof (conv_answered _ _ _ _ _ _ _ _ _ _ Hc) as Ha. destruct (answered_data _ _ _ Ha) as [D1 D2].
  exists ins, txs, outs, byes, esc, rest. do 3 (split; [assumption|]). intros k h Ec Es.
  apply (small_bodies ins txs outs h k byes Ha Ec Es). destruct Hb as [->|(g & -> & Hg & _)]; constructor; [|constructor].
  rewrite Hg. discriminate.
Qed.
Print Assumptions C44_small_bodies_partial.

(** The exchange of C29_case in the order in which it happens. *)
Definition a_history : list passed :=
  [ByClient (WFrame 4 0 0 [0; 4; 0; 0; 255; 255]); ByServer server_settings; ByServer (WFrame 4 1 0 []);
   ByClient f_get; ByServer (WFrame 1 4 1 [136]); ByServer (WFrame 0 1 1 [104; 105]); ByClient (WFrame 8 0 0 [0; 0; 0; 2])].
Example C44_case : windows_honoured a_history /\ stream_window 1 a_history = 65533 /\ connection_window a_history = 65535 /\
  ~ windows_honoured (ByClient (WFrame 4 0 0 [0; 4; 0; 0; 0; 1]) :: tl a_history).
Proof.
  split; [|split; [reflexivity|split; [reflexivity|]]].
  - intros a f b E Hf. unfold a_history in E.
    do 5 (destruct a as [|x a]; [first [discriminate E|injection E as <- <-; discriminate Hf]|injection E as <- E]).
    destruct a as [|x a]; [injection E as <- <-; vm_compute; split; discriminate|]. injection E as <- E.
    destruct a as [|x a]; [discriminate E|]. injection E as _ E. destruct a; discriminate E.
  - intros H. destruct (H [ByClient (WFrame 4 0 0 [0; 4; 0; 0; 0; 1]); ByServer server_settings; ByServer (WFrame 4 1 0 []);
      ByClient f_get; ByServer (WFrame 1 4 1 [136])] (WFrame 0 1 1 [104; 105]) [ByClient (WFrame 8 0 0 [0; 0; 0; 2])] eq_refl eq_refl) as [K _].
    vm_compute in K. now apply K.
Qed.

(** ** C35.  The work of one call (requests handled, frames and log lines produced) is limited
    by what it reads and by the size of the buffer.  Partial: that a call reads only so much
    is false ([C35_unbounded_refuted]). *)
Theorem C35_input_partial : forall W app cs T others t0 w0 A r c tr w s r' c' ev w',
  session W app cs T others t0 w0 A r c tr w -> scripts_ok s ->
  process W app cs T s c w = Ret (r', c', ev, w') ->
  9 * lenZ (visible ev) <= 4 * (65540 + lenZ (received ev)).
Proof.
  intros W app cs T others t0 w0 A r c tr w s r' c' ev w' H Hs E.
  destruct (buffer_bounded W app cs T others t0 w0 A r c tr w H) as [Hb Hl].
  change MAX_READ_BUFFER_SIZE with 65536 in Hl.   pose proof (call_work W app cs T s c w r' c' ev w' Hs Hb E). lia.
Qed.
Print Assumptions C35_input_partial.

(** One call that handles the preface, SETTINGS and a request: its SETTINGS, the
    acknowledgement, the request, two frames and the log line. *)
Example C35_case : forall T cs, exists r' c' ev w', scripts_ok (deliver [octets (w_hello ++ w_get)]) /\
  process unit hi cs T (deliver [octets (w_hello ++ w_get)]) (fresh_conn 0) tt = Ret (r', c', ev, w') /\
  lenZ (visible ev) = 6 /\ lenZ (received ev) = 44.
Proof.
  intros T cs. destruct cs; (eexists _, _, _, _; split; [apply scripts_okb; vm_compute; reflexivity|]; split; [vm_compute; reflexivity|]; split; reflexivity).
Qed.

(** ** C72.  Every malformed frame makes the server read out of bounds, at any point of any
    connection that waits for input: [rest] is what the server has of the frame, [more] is
    what it reads of it now.  With [C72_only_malformed_partial] this says exactly which
    inputs are mishandled. *)
Theorem C72_every_malformed_refuted : forall W app cs T others t0 w0 A c tr w ins o rest txs outs f more now s,
  huffman_tree = Ret T -> answers_ok cs app ->
  session W app cs T others t0 w0 A (Some WantRead) c tr w -> scripts_ok s ->
  received tr = rfc_preface ++ o ++ rest -> frames_octets ins o -> frame_octets f (rest ++ more) ->
  Forall (fun f => lenZ (w_payload f) <= 16384) (ins ++ [f]) -> answered ins txs outs -> malformed txs f ->
  more <> [] -> sc_rd s = [(now, RdData more)] ->
  (delivered tr = queued tr \/ exists now n wr, sc_wr s = (now, WrOk n) :: wr /\ lenZ (queued tr) <= n) ->
  process W app cs T s c w = Undef.
Proof.
  intros W app cs T others t0 w0 A c tr w ins o rest txs outs f more now s HT Happ.
  exact (every_malformed W app cs T others t0 w0 (is_tree_intro T HT) Happ A c tr w ins o rest txs outs f more now s).
Qed.
Print Assumptions C72_every_malformed_refuted.

(** After a request and its answer, a HEADERS frame of which four octets are there; its
    block is cut off inside an index. *)
Definition w_cut : bytes := [0; 0; 2; 1; 5; 0; 0; 0; 1; 130; 255].
Example C72_cut_case : forall cs, exists T c tr w s f, huffman_tree = Ret T /\ answers_ok cs hi /\
  session unit hi cs T eq 0 tt any (Some WantRead) c tr w /\ scripts_ok s /\
  received tr = rfc_preface ++ w_settings ++ firstn 4 w_cut /\ frames_octets [WFrame 4 0 0 []] w_settings /\
  frame_octets f (firstn 4 w_cut ++ skipn 4 w_cut) /\ Forall (fun f => lenZ (w_payload f) <= 16384) ([WFrame 4 0 0 []] ++ [f]) /\
  answered [WFrame 4 0 0 []] [] [WFrame 4 1 0 []] /\ malformed [] f /\
  sc_rd s = [(0, RdData (skipn 4 w_cut))] /\ delivered tr = queued tr.
Proof.
  intros cs. pose (T := the_tree). assert (HT : huffman_tree = Ret T) by exact huffman_tree_eq. clearbody T.
  assert (H : exists c tr w, session unit hi cs T eq 0 tt any (Some WantRead) c tr w /\
    received tr = rfc_preface ++ w_settings ++ firstn 4 w_cut /\ delivered tr = queued tr).
  { apply (by_run hi cs T eq 0 tt any [deliver [octets (rfc_preface ++ w_settings ++ firstn 4 w_cut)]]); [scripts_ok|apply Forall_any|].
    destruct cs; vm_compute; repeat split. }
  destruct H as (c & tr & w & H & R & D).
  exists T, c, tr, w, (deliver [octets (skipn 4 w_cut)]), (WFrame 1 5 1 [130; 255]).
  split; [exact HT|]. split; [apply hi_ok|]. split; [exact H|]. split; [apply scripts_okb; vm_compute; reflexivity|].
  split; [exact R|]. split; [exists [w_settings]; split; [|reflexivity]; repeat constructor; by_layout|].
  split; [by_layout|]. split; [repeat constructor; vm_compute; discriminate|].
  split; [apply (answered_settings [] [] [] 0 0 []); [constructor|reflexivity..]|].
  split; [|split; [reflexivity|exact D]].
  apply (malformed_block _ _ [130] [255] [[Hdr (str ":method") (str "GET")]] ([], 65536)).
  - reflexivity.
  - exists [], []. repeat split.
  - cbn [map Datatypes.app]. econstructor; [|constructor].
    apply (block_cons server_profile _ [130] [Hdr (str ":method") (str "GET")] ([], 65536) [] []); [|constructor].
    apply repr_indexed with 2; [lia| |reflexivity]. split; [apply (int_short 7 130); [split; lia|reflexivity]|]. split; [discriminate|reflexivity].
  - exists 255, [], 7. split; [reflexivity|]. split; [reflexivity|]. intros (u & r & v & E & [Hi _]).
    destruct Hi as [b Hb Hm|b bs x Hb Hm Hc]; injection E as <- E; [discriminate Hm|].
    symmetry in E. apply app_eq_nil in E as [-> _]. inversion Hc.
Qed.
