(** C122: when the server waits for a client, the client has been given the answers to all it
    asked. *)
From Verif Require Import Base BaseLemmas SpecFrames FramesProofs SpecHpack Huffman HuffmanProofs Http Conn SpecConn ConnLemmas ConnRule ConnBasic ConnTerm ConnRun ConnSpec
  ConnMain ConnMore ConnLast ConnWit Files SpecFiles PropFiles Router App SpecApp PropApp
  Poller Server SpecServer ServerProofs ServerReach ServerHistory PropServer PropServer2 ProgramExt SpecProgram ProgramProofs PropProgram ServerMore RulesProofs PropFlow SpecDelivery PropDelivery.

(** A write that is to be tried again took nothing. *)
Definition again_took (e : event) : Prop := match e with EvWrite _ _ taken (Error WantReadOrWrite) => taken = [] | _ => True end.
Lemma quiet_again ev : quiet_or_shutdown ev -> Forall again_took ev.
Proof. intros [H| ->]; [|repeat constructor]. induction H as [|e ev He _ IH]; constructor; [now destruct e|exact IH]. Qed.
Lemma session_again W app cs T others t0 w0 A r c tr w : session W app cs T others t0 w0 A r c tr w -> Forall again_took tr.
Proof.
  intros H. apply session_any in H.
  eapply (session_rule_buffered W app cs T others t0 w0 any any (fun _ tr _ => Forall again_took tr) (fun _ _ tr _ => Forall again_took tr)) in H; auto.
  - destruct r; apply H.
  - intros now c1 tr1 w1 K _. apply Forall_app. split; [exact K|repeat constructor].
  - intros e c1 tr1 w1 K _ _. apply Forall_app. split; [exact K|repeat constructor].
  - intros wr c1 tr1 w1 c2 ev wr' K _ _ _ E. apply Forall_app. split; [exact K|]. unfold flush_write_buffer in E. destruct (c_wbuf c1) as [|x b].
    { injection E as _ <- _. constructor. }
    destruct wr as [|[now [n|k|e]] wr]; injection E as _ <- _; (constructor; [|constructor]); cbn; auto. now destruct e.
  - intros now o c1 tr1 w1 K _ _ _ _ _ _ _. apply Forall_app. split; [exact K|repeat constructor].
  - intros now e c1 tr1 w1 K _ _ _ _. apply Forall_app. split; [exact K|repeat constructor].
  - intros c1 tr1 w1 c2 ev w2 K [Hb _] _ Hs E. apply dispatch_quiet in E as (Hq & _); auto. apply Forall_app. split; [exact K|now apply quiet_again].
  - intros c1 tr1 w1 r1 c2 ev w2 K [Hb _] _ Hs E. apply dispatch_quiet in E as (Hq & _); auto. apply Forall_app. split; [exact K|now apply quiet_again].
  - intros c1 tr1 w1 c2 ev w2 K [Hb _] _ Hs E. apply dispatch_quiet in E as (Hq & _); auto. apply Forall_app. split; [exact K|now apply quiet_again].
Qed.
(** A server that waits for the client has seen no write fail. *)
Lemma waiting_true W app cs T others t0 w0 A c tr w : session W app cs T others t0 w0 A (Some WantRead) c tr w -> true_writes tr.
Proof.
  intros H. pose proof (session_again _ _ _ _ _ _ _ _ _ _ _ _ H) as Ha.
  assert (K : no_failure tr).
  { destruct (session_over _ _ _ _ _ _ _ _ _ _ _ _ H) as [K|[K _]]; [exact K|exfalso]. apply session_run in H as [HP H]. unfold P in HP. destruct K as [K|[K|K]]; rewrite K in HP, H; easy. }
  unfold no_failure in K. apply Forall_forall. intros e He. rewrite Forall_forall in Ha. specialize (Ha e He). destruct e; try exact I. destruct res as [|x]; [exact I|].
  assert (Kx : x = WantReadOrWrite).
  { destruct x; try reflexivity; exfalso; (assert (Q : existsb failed_write_event tr = true) by (apply existsb_exists; eexists; split; [exact He|reflexivity])); congruence. }
  subst x. exact Ha.
Qed.

(** ** C36, whatever the writes do. *)
Theorem C36_any_writes_partial : forall W app cs T others t0 w0 A c tr w,
  session W app cs T others t0 w0 A (Some WantRead) c tr w ->
  delivered tr = queued tr \/ (delivered tr = [] /\ frame_octets server_settings (queued tr) /\ requests tr = []).
Proof.
  intros W app cs T others t0 w0 A c tr w H. pose proof (no_loss_seen _ _ _ _ _ _ _ _ _ _ _ _ H (waiting_true _ _ _ _ _ _ _ _ _ _ _ H)) as Hq. apply session_run in H as [HP H].
  unfold P in HP. destruct (c_state c); try easy.
  - destruct HP as (_ & _ & Hw & _). rewrite Hw, app_nil_r in Hq. auto.
  - destruct HP as (_ & Hw & _). rewrite Hw, app_nil_r in Hq. auto.
  - destruct H as [_ [Hw|(Hw & Hd & Ha)]]; [rewrite Hw, app_nil_r in Hq; auto|right].
    rewrite <- requests_acts, Ha, <- Hq, Hd, Hw. split; [reflexivity|]. split; [exact settings_frame|reflexivity].
Qed.
Print Assumptions C36_any_writes_partial.

(** ** C122.  [ins] are frames that the client has sent in full.  They have been answered, as
    described by [answered], perhaps together with further ones, and what is left of what the
    client sent is not a whole frame.  The answers have been handed to the transport; without
    any the server's SETTINGS frame may wait (C36). *)
Theorem C122_answered : forall linux listener W app cs T k0 w0 ok A pending s fd e ins o x,
  huffman_tree = Ret T -> answers_ok cs app -> setting listener k0 -> reached linux listener W app cs T k0 w0 ok A pending s ->
  conn_at W s fd e -> e_result e = Some WantRead ->
  received (e_trace e) = rfc_preface ++ o ++ x -> frames_octets ins o -> Forall (fun f => lenZ (w_payload f) <= 16384) ins ->
  exists more txs outs rest, conversation (fun _ _ => True) app w0 (e_trace e) (ins ++ more) txs outs [] [] rest /\ partial_frame rest /\
    (delivered (e_trace e) = queued (e_trace e) \/
     delivered (e_trace e) = [] /\ frame_octets server_settings (queued (e_trace e)) /\ requests (e_trace e) = []).
Proof.
  intros linux listener W app cs T k0 w0 ok A pending s fd e ins o x HT Hok Hset R Hc Hr Hrec Ho Hs.
  destruct (C50_own_life _ _ _ _ _ _ _ _ _ _ _ _ e Hset R (or_introl (ex_intro _ fd Hc))) as [w HS]. rewrite Hr in HS.
  destruct (all_handled _ _ _ _ _ _ _ (is_tree_intro T HT) Hok _ _ _ _ _ _ _ HS Hrec Ho Hs) as (more & txs & outs & rest & HC & Hp).
  exists more, txs, outs, rest. split; [exact HC|]. split; [exact Hp|].
  exact (C36_any_writes_partial _ _ _ _ _ _ _ _ _ _ _ HS).
Qed.
Print Assumptions C122_answered.
Lemma get_layout : frames_octets [WFrame 4 0 0 []; WFrame 1 5 1 [130; 132]] (w_settings ++ w_get).
Proof. exists [w_settings; w_get]. split; [|reflexivity]. repeat constructor; by_layout. Qed.
Example C122_case : forall linux, exists s e, huffman_tree = Ret the_tree /\ answers_ok true hi /\
  reached linux 3 unit hi true the_tree k_std tt true enough_resources [] s /\ conn_at unit s 4 e /\ e_result e = Some WantRead /\
  received (e_trace e) = rfc_preface ++ (w_settings ++ w_get) ++ [0; 0] /\ lenZ (requests (e_trace e)) = 1.
Proof.
  intros linux.
  destruct (by_reached (linux := linux) (app := hi) (cs := true) (T := the_tree) (w0 := tt) [at_time 0 [arrives 4]; at_time 0 [sends 4 (w_hello ++ w_get ++ [0; 0])]]
    (fun s => match mget 4 (sv_conns unit s) with Some e => e_result e = Some WantRead /\
       received (e_trace e) = rfc_preface ++ (w_settings ++ w_get) ++ [0; 0] /\ lenZ (requests (e_trace e)) = 1 | None => False end)) as (s & H & K).
  - destruct linux; vm_compute; repeat split.
  - apply iterations_ok. vm_compute. reflexivity.
  - destruct (mget 4 (sv_conns unit s)) as [e|] eqn:E; [|destruct K]. exists s, e. split; [exact huffman_tree_eq|]. split; [apply hi_ok|]. split; [exact H|]. split; [exact E|exact K].
Qed.

(** The shipped program: the octets that its client has been given are the frames of the
    answers that the command line and the files determine. *)
Theorem C122_program : forall linux listener page a cs T k0 w0 ok A pending s fd e ins o x,
  huffman_tree = Ret T -> setting listener k0 -> reached linux listener world (main_app page a) cs T k0 w0 ok A pending s ->
  args_ok a (w_os w0) -> files_fit page (w_os w0) ->
  conn_at world s fd e -> e_result e = Some WantRead ->
  received (e_trace e) = rfc_preface ++ o ++ x -> frames_octets ins o -> Forall (fun f => lenZ (w_payload f) <= 16384) ins ->
  exists more txs outs rest, answered (ins ++ more) txs outs /\ partial_frame rest /\
    (exists o', frames_octets (ins ++ more) o' /\ received (e_trace e) = rfc_preface ++ o' ++ rest) /\
    Forall (served_by page a (w_os w0) (w_no_new_privs w0)) txs /\ requests (e_trace e) = concat (map tx_app txs) /\
    (frames_octets (server_settings :: outs) (delivered (e_trace e)) \/ outs = [] /\ delivered (e_trace e) = []).
Proof.
  intros linux listener page a cs T k0 w0 ok A pending s fd e ins o x HT Hset R Ha Hf Hc Hr Hrec Ho Hs.
  destruct (program_life _ _ _ _ _ _ _ _ _ _ _ _ e Hset R Ha (or_introl (ex_intro _ fd Hc))) as [w HS]. rewrite Hr in HS.
  destruct (all_handled _ _ _ _ _ _ _ (is_tree_intro T HT) (fixed_ok page a _ _ Ha cs Hf) _ _ _ _ _ _ _ HS Hrec Ho Hs) as (more & txs & outs & rest & HC & Hp).
  destruct (program_served page a w0 _ _ _ _ _ _ _ Ha Hf HC (or_introl eq_refl)) as (_ & Hd & _ & Hfr). rewrite app_nil_r in Hfr.
  destruct HC as [C1 _ C3 _ C5 _ _ _ _ _ _]. rewrite app_nil_r in C5.
  exists more, txs, outs, rest. split; [exact C3|]. split; [exact Hp|]. split; [exact C1|]. split; [exact Hd|]. split; [exact C5|].
  destruct (C36_any_writes_partial _ _ _ _ _ _ _ _ _ _ _ HS) as [K|(K1 & K2 & K3)]; [left; now rewrite K|right].
  split; [|exact K1]. destruct Hfr as (os & Hfr & Eo). inversion Hfr as [|f0 fo fs os' H1 H2]. subst.
  destruct H2 as [|f1 o1 fs1 os1 H3 _]; [reflexivity|exfalso]. apply frame_length in H1, H3, K2.
  apply (f_equal lenZ) in Eo. cbn [concat] in Eo. rewrite !lenZ_app in Eo. pose proof (lenZ_nonneg (w_payload f1)). pose proof (lenZ_nonneg (concat os1)). lia.
Qed.
Print Assumptions C122_program.
(** The run of [C81_case]. *)
Definition visit_frames : list wframe :=
  [WFrame 4 0 0 []; WFrame 1 5 1 ([130; 4; 13] ++ str "/static/a.txt"); WFrame 1 5 3 ([130; 4; 8] ++ str "/nothing")].
Definition visit_sent : bytes := w_settings ++ get 1 (str "/static/a.txt") ++ get 3 (str "/nothing").
Lemma visit_layout : frames_octets visit_frames visit_sent.
Proof.
  exists [w_settings; get 1 (str "/static/a.txt"); get 3 (str "/nothing")]. split; [|reflexivity].
  match goal with |- Forall2 _ ?x ?y => let x' := eval vm_compute in x in let y' := eval vm_compute in y in change (Forall2 frame_octets x' y') end.
  repeat (constructor; [by_layout|]). constructor.
Qed.
Example C122_program_case : forall linux, exists s e, huffman_tree = Ret the_tree /\
  reached linux 3 world (main_app short_page some_args) true the_tree k_std a_world true enough_resources [] s /\
  args_ok some_args (w_os a_world) /\ files_fit short_page (w_os a_world) /\ conn_at world s 5 e /\ e_result e = Some WantRead /\
  received (e_trace e) = rfc_preface ++ visit_sent ++ [] /\ delivered (e_trace e) = visit_octets.
Proof.
  intros linux.
  destruct (by_reached (linux := linux) (app := main_app short_page some_args) (cs := true) (T := the_tree) (w0 := a_world) visits
    (fun s => match mget 5 (sv_conns world s) with Some e => e_result e = Some WantRead /\
       received (e_trace e) = rfc_preface ++ visit_sent ++ [] /\ delivered (e_trace e) = visit_octets | None => False end)) as (s & H & K).
  - destruct linux; vm_compute; repeat split.
  - apply iterations_ok. vm_compute. reflexivity.
  - destruct (mget 5 (sv_conns world s)) as [e|] eqn:E; [|destruct K]. exists s, e. split; [exact huffman_tree_eq|]. split; [exact H|].
    split; [exact some_args_ok|]. split; [exact short_fit|]. split; [exact E|exact K].
Qed.
