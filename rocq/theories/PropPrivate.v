(** C124: what a client says in fields that nobody asked for shows nowhere. *)
From Verif Require Import FileSys Files Router App AppProofs PropApp.
From Verif Require Import Base BaseLemmas SpecFrames SpecHpack HpackLemmas Huffman HuffmanProofs DynTable HpackDec HpackDecProofs
  Frames Http Conn SpecConn SpecRules SpecPrivate AccessLog Messages SpecMessages ConnLemmas ConnRule ConnBasic ConnTerm ConnRun ConnSpec ConnMain ConnDet ConnWit
  SpansProofs MessagesRule MessagesFiles PropMessages RulesProofs PrivateProofs.

(** Two connections whose clients send the same frames, but for HEADERS frames: these have
    the same streams and whatever flags and encoding, and are read as field lists that have
    the same public fields.  Public are at least :method and :path, and all the application
    looks at.  Then the server sends both clients the same octets, asks the application
    the same but for the other fields, gets the same answers, and reports the same to the log
    but for the other fields. *)
Theorem C124_unseen : forall W app cs T w0 public A1 A2 t1 t2 ins ins' o o' hss hss' r1 c1 tr1 w1 r2 c2 tr2 w2,
  huffman_tree = Ret T -> incl [str ":method"; str ":path"] public -> discreet public app ->
  sends ins o hss -> sends ins' o' hss' -> Forall2 like_frame ins ins' -> Forall2 (same_public public) hss hss' ->
  session W app cs T eq t1 w0 A1 r1 c1 tr1 w1 -> session W app cs T eq t2 w0 A2 r2 c2 tr2 w2 ->
  done_with (rfc_preface ++ o) r1 tr1 -> done_with (rfc_preface ++ o') r2 tr2 ->
  queued tr1 = queued tr2 /\
  Forall2 (fun x x' => like_request public (fst x) (fst x') /\ snd x = snd x') (requests tr1) (requests tr2) /\
  Forall2 (fun x x' => same_public public (fst (fst x)) (fst (fst x')) /\ snd (fst x) = snd (fst x') /\ snd x = snd x') (logged tr1) (logged tr2).
Proof.
  intros W app cs T w0 public A1 A2 t1 t2 ins ins' o o' hss hss' r1 c1 tr1 w1 r2 c2 tr2 w2 HT Hp Happ S1 S2 L Hs H1 H2 D1 D2.
  assert (P : In (str ":method") public /\ In (str ":path") public) by (split; apply Hp; cbn; auto).
  pose proof (veiled_sessions _ _ _ _ _ _ _ _ _ _ _ _ _ _ _ _ _ _ _ _ _ _ _ _ (is_tree_intro T HT) P Happ S1 S2 L Hs H1 H2 D1 D2) as V.
  apply veiled_parts in V. rewrite (visible_acts tr1), (visible_acts tr2), !queued_acts, !requests_acts, !logged_acts in V. exact V.
Qed.
Print Assumptions C124_unseen.

(** With the names that log lines show among the public ones, the log files are the same. *)
Theorem C124_log : forall W app cs T w0 public A1 A2 t1 t2 ins ins' o o' hss hss' r1 c1 tr1 w1 r2 c2 tr2 w2,
  huffman_tree = Ret T -> incl in_log public -> discreet public app ->
  sends ins o hss -> sends ins' o' hss' -> Forall2 like_frame ins ins' -> Forall2 (same_public public) hss hss' ->
  session W app cs T eq t1 w0 A1 r1 c1 tr1 w1 -> session W app cs T eq t2 w0 A2 r2 c2 tr2 w2 ->
  done_with (rfc_preface ++ o) r1 tr1 -> done_with (rfc_preface ++ o') r2 tr2 ->
  forall who times, log_file who times (logged tr1) = log_file who times (logged tr2).
Proof.
  intros W app cs T w0 public A1 A2 t1 t2 ins ins' o o' hss hss' r1 c1 tr1 w1 r2 c2 tr2 w2 HT Hp Happ S1 S2 L Hs H1 H2 D1 D2 who.
  assert (P : incl [str ":method"; str ":path"] public) by (intros n Hn; apply Hp; cbn in *; tauto).
  destruct (C124_unseen _ _ _ _ _ _ _ _ _ _ _ _ _ _ _ _ _ _ _ _ _ _ _ _ HT P Happ S1 S2 L Hs H1 H2 D1 D2) as (_ & _ & H).
  clear - Hp H. induction H as [|[[hs st] sz] [[hs' st'] sz'] l l' (Hh & E1 & E2) _ IH]; intros times; [now destruct times|].
  cbn [fst snd] in *. subst st' sz'. destruct times as [|t times]; [reflexivity|]. cbn [log_file]. rewrite <- IH. f_equal.
  unfold log_request, log_text.
  rewrite !(fun n Hn => same_public_recorded public n _ _ (Hp n Hn) Hh); [reflexivity|cbn; auto..].
Qed.
Print Assumptions C124_log.

(** So is what the console shows at level info, if the application's own messages are not
    at that level. *)
Theorem C124_console : forall W app cs T says1 thrown1 unhandled1 says2 thrown2 unhandled2 w0 public A1 A2 t1 t2 ins ins' o o' hss hss'
    r1 c1 tr1 w1 ms1 r2 c2 tr2 w2 ms2,
  huffman_tree = Ret T -> incl [str ":method"; str ":path"] public -> discreet public app ->
  sends ins o hss -> sends ins' o' hss' -> Forall2 like_frame ins ins' -> Forall2 (same_public public) hss hss' ->
  (forall rq w m, In m (says1 rq w) \/ In m (says2 rq w) -> m_level m <> LInfo) ->
  (forall rq w w' r, app rq w = (w', Answers r) -> 0 <= rs_status r) ->
  narrated W app cs T says1 thrown1 unhandled1 eq t1 w0 A1 r1 c1 tr1 w1 ms1 -> narrated W app cs T says2 thrown2 unhandled2 eq t2 w0 A2 r2 c2 tr2 w2 ms2 ->
  done_with (rfc_preface ++ o) r1 tr1 -> done_with (rfc_preface ++ o') r2 tr2 ->
  infos ms1 = infos ms2.
Proof.
  intros W app cs T s1 th1 u1 s2 th2 u2 w0 public A1 A2 t1 t2 ins ins' o o' hss hss' r1 c1 tr1 w1 ms1 r2 c2 tr2 w2 ms2 HT Hp Happ S1 S2 L Hs Hm Hst N1 N2 D1 D2.
  assert (P : In (str ":method") public /\ In (str ":path") public) by (split; apply Hp; cbn; auto).
  pose proof (narrated_session _ _ _ _ _ _ _ _ _ _ _ _ _ _ _ _ N1) as H1.
  pose proof (narrated_session _ _ _ _ _ _ _ _ _ _ _ _ _ _ _ _ N2) as H2.
  pose proof (veiled_sessions _ _ _ _ _ _ _ _ _ _ _ _ _ _ _ _ _ _ _ _ _ _ _ _ (is_tree_intro T HT) P Happ S1 S2 L Hs H1 H2 D1 D2) as V.
  eapply tells_veiled; [exact V|..]; apply tells_visible.
  - refine (C110_agrees_with_log _ _ _ _ _ _ _ _ _ _ _ _ _ _ _ _ _ Hst N1). intros rq w m Hi. apply (Hm rq w m). now left.
  - refine (C110_agrees_with_log _ _ _ _ _ _ _ _ _ _ _ _ _ _ _ _ _ Hst N2). intros rq w m Hi. apply (Hm rq w m). now right.
Qed.
Print Assumptions C124_console.

(** The shipped program looks at nothing but :method and :path: its answers do not depend
    on anything else, nor do its messages. *)
Theorem C124_program : forall path_error fails page a public rq rq' w, like_request public rq rq' ->
  main_app page a rq w = main_app page a rq' w /\
  program_messages path_error fails page a rq w = program_messages path_error fails page a rq' w.
Proof.
  intros pe fails page a public rq rq' w (Em & Ep & _).
  pose proof (main_app_blind page a rq rq' w Em Ep) as E. split; [exact E|].
  unfold program_messages, target_messages. now rewrite Em, Ep, E.
Qed.
Print Assumptions C124_program.

(** For the shipped program: the log and the octets sent are the same whatever other fields,
    such as authorization or cookie, requests have. *)
Theorem C124_shipped : forall page a cs T w0 A1 A2 t1 t2 ins ins' o o' hss hss' r1 c1 tr1 w1 r2 c2 tr2 w2,
  huffman_tree = Ret T -> sends ins o hss -> sends ins' o' hss' -> Forall2 like_frame ins ins' ->
  Forall2 (same_public [str ":method"; str ":path"; str "user-agent"; str "referer"]) hss hss' ->
  session world (main_app page a) cs T eq t1 w0 A1 r1 c1 tr1 w1 -> session world (main_app page a) cs T eq t2 w0 A2 r2 c2 tr2 w2 ->
  done_with (rfc_preface ++ o) r1 tr1 -> done_with (rfc_preface ++ o') r2 tr2 ->
  queued tr1 = queued tr2 /\ forall who times, log_file who times (logged tr1) = log_file who times (logged tr2).
Proof.
  intros page a cs T w0 A1 A2 t1 t2 ins ins' o o' hss hss' r1 c1 tr1 w1 r2 c2 tr2 w2 HT S1 S2 L Hs H1 H2 D1 D2.
  assert (P : discreet in_log (main_app page a)) by (intros r r' w (Em & Ep & _); now apply main_app_blind).
  split.
  - refine (proj1 (C124_unseen _ _ _ _ _ in_log _ _ _ _ _ _ _ _ _ _ _ _ _ _ _ _ _ _ HT _ P S1 S2 L Hs H1 H2 D1 D2)). intros n Hn. cbn in *. tauto.
  - exact (C124_log _ _ _ _ _ in_log _ _ _ _ _ _ _ _ _ _ _ _ _ _ _ _ _ _ HT (incl_refl _) P S1 S2 L Hs H1 H2 D1 D2).
Qed.
Print Assumptions C124_shipped.

(** Two clients that ask for the same with different passwords, one of them sent as a field
    that is added to the decoder's table, the other one not. *)
Definition with_password (first : Z) (v : bytes) : bytes :=
  let block := [130; 132; first] ++ (if first =? 16 then [13] ++ str "authorization" else []) ++ [lenZ v] ++ v in
  [0; 0; lenZ block; 1; 5; 0; 0; 0; 1] ++ block.
Definition asks (v : bytes) : list header := [Hdr (str ":method") (str "GET"); Hdr (str ":path") (str "/"); Hdr (str "authorization") v].
Definition password_frames (first : Z) (v : bytes) : list wframe :=
  [WFrame 4 0 0 []; WFrame 1 5 1 (skipn 9 (with_password first v))].

Lemma password_octets first v : In (first, v) [(87, str "secret"); (16, str "hunter2!")] ->
  let f := WFrame 1 5 1 (skipn 9 (with_password first v)) in
  frame_octets f (with_password first v) /\ all_bytes (w_payload f) /\ lenZ (w_payload f) <= 16384.
Proof.
  assert (B : forall l, forallb (fun b => (0 <=? b) && (b <? 256)) l = true -> all_bytes l).
  { intros l H. apply Forall_forall. intros b Hb. rewrite forallb_forall in H. specialize (H b Hb). unfold is_byte. lia. }
  assert (S : forall p, lenZ p < 256 -> frame_octets (WFrame 1 5 1 p) ([0; 0; lenZ p; 1; 5; 0; 0; 0; 1] ++ p)).
  { intros p Hp. pose proof (lenZ_nonneg p). exists [0; 0; lenZ p; 1; 5; 0; 0; 0; 1]. split; [reflexivity|]. cbn [w_payload w_type w_flags w_stream].
    exists [0; 0; lenZ p], [0; 0; 0; 1], 0. repeat split; cbn; try lia; repeat constructor; unfold is_byte; lia. }
  intros [E|[E|[]]]; injection E as <- <-; (split; [|split; [apply B; vm_compute; reflexivity|vm_compute; discriminate]]);
    match goal with |- frame_octets (WFrame 1 5 1 ?p) _ => apply (S p) end; vm_compute; reflexivity.
Qed.
Lemma password_sends T first v t : huffman_tree = Ret T -> In (first, v) [(87, str "secret"); (16, str "hunter2!")] ->
  decode_seq T (dt_init DEFAULT_MAX_TABLE_SIZE) [skipn 9 (with_password first v)] = Ret (Val [asks v], t) ->
  sends (password_frames first v) (w_settings ++ with_password first v) [asks v].
Proof.
  intros HT Hin E. apply password_octets in Hin as (F & B & S). unfold password_frames. cbn [w_payload] in B, S.
  assert (R : rfc_blocks server_profile ([], 65536) [skipn 9 (with_password first v)] [asks v] (dt_table t, dt_max t)).
  { apply (connection_sound T); [exact HT| |exact E]. constructor; [exact B|constructor]. }
  clear HT E. set (p := skipn 9 (with_password first v)) in *. set (x := with_password first v) in *. clearbody p x. split; [|split].
  - exists [w_settings; x]. split; [|cbn [concat]; now rewrite app_nil_r].
    constructor; [|constructor; [exact F|constructor]].
    exact (serialized_frame 4 0 0 [] ltac:(split; easy) ltac:(split; easy) ltac:(split; easy) ltac:(easy)).
  - constructor; [split; [constructor|easy]|]. constructor; [split; [exact B|exact S]|constructor].
  - exists [p], (dt_table t, dt_max t). split; [|exact R]. constructor; [|constructor].
    exists [], []. repeat split. now rewrite app_nil_r.
Qed.
Lemma passwords_alike : Forall2 like_frame (password_frames 87 (str "secret")) (password_frames 16 (str "hunter2!")) /\
  Forall2 (same_public in_log) [asks (str "secret")] [asks (str "hunter2!")].
Proof.
  split; [repeat constructor|]. constructor; [|constructor]. apply public_both, public_both.
  assert (N : ~ In (str "authorization") in_log) by (intros H; repeat destruct H as [H|H]; try discriminate H; destruct H).
  apply public_left; [exact N|]. apply public_right; [exact N|]. constructor.
Qed.

Example C124_case : forall T, huffman_tree = Ret T ->
  sends (password_frames 87 (str "secret")) (w_settings ++ with_password 87 (str "secret")) [asks (str "secret")] /\
  sends (password_frames 16 (str "hunter2!")) (w_settings ++ with_password 16 (str "hunter2!")) [asks (str "hunter2!")] /\
  Forall2 like_frame (password_frames 87 (str "secret")) (password_frames 16 (str "hunter2!")) /\
  Forall2 (same_public in_log) [asks (str "secret")] [asks (str "hunter2!")].
Proof.
  intros T HT. split; [|split; [|exact passwords_alike]].
  - eapply (password_sends T); [exact HT|left; reflexivity|]. clear HT. vm_compute. reflexivity.
  - eapply (password_sends T); [exact HT|right; left; reflexivity|]. clear HT. vm_compute. reflexivity.
Qed.

Example C124_runs_case : forall T cs, Forall (fun x => exists c tr w ms,
  narrated world (main_app plain_page some_args) cs T
    (program_messages (fun _ _ => str "error") (fun _ => NotOpened) plain_page some_args) oops boom eq 0 a_world any (Some WantRead) c tr w ms /\
  done_with (rfc_preface ++ w_settings ++ with_password (fst x) (snd x)) (Some WantRead) tr /\
  logged tr = [(asks (snd x), 404, 4)] /\ map (fun y => rq_headers (fst y)) (requests tr) = [asks (snd x)] /\
  infos ms = [info (str "valid HTTP/2 preface received"); info (str "404 status code sent w/headers");
              info (str "sending response body (length: 4)")])
  [(87, str "secret"); (16, str "hunter2!")].
Proof.
  intros T cs. constructor; [|constructor; [|constructor]];
  match goal with |- context [with_password (fst ?x) (snd ?x)] =>
    apply (by_narrate (main_app plain_page some_args) cs T _ oops boom eq 0 a_world any
      [deliver [octets (rfc_preface ++ w_settings ++ with_password (fst x) (snd x))]]); [scripts_ok|apply Forall_any|] end;
  destruct cs; vm_compute; (split; [reflexivity|]); (split; [left; split; reflexivity|]); repeat split.
Qed.
