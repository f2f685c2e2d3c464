(** Two applications that agree on the states that occur make the same server. *)
From Verif Require Import Base BaseLemmas Huffman DynTable HpackDec HpackEnc Frames Http Conn SpecConn ConnLemmas ConnRule ConnBasic Poller Server SpecServer
  ServerProofs ServerReach SocketProofs ServerHistory.

Section Ext.
  Variable W : Type.
  Variables app app' : request -> W -> W * app_answer.
  Variable cs : bool.
  Variable T : tree.
  Variable P : W -> Prop.
  Hypothesis keeps_P : forall rq w, P w -> P (fst (app rq w)).
  Hypothesis agree : forall rq w, P w -> app' rq w = app rq w.

  Lemma handled_P l : forall w w', handled eq app w l w' -> P w -> P w'.
  Proof.
    intros w w' H Hw. induction H as [|l w1 w2 _ IH E|l w1 rq w2 r _ IH E|l w1 rq w2 _ IH E|l w1 rq w2 _ IH E]; [exact Hw|now subst|..];
      pose proof (keeps_P rq w1 IH) as K; rewrite E in K; exact K.
  Qed.
  Lemma request_ext hs w : P w -> process_request W app' hs w = process_request W app hs w.
  Proof.
    intros Hw. unfold process_request. destruct (get_header hs (str ":path")) as [p|]; [|reflexivity].
    destruct (get_header hs (str ":method")) as [m|]; [|reflexivity]. cbv zeta. now rewrite (agree _ w Hw).
  Qed.
  Lemma frame_ext f d e w : P w -> process_frame W app' cs T f d e w = process_frame W app cs T f d e w.
  Proof.
    intros Hw. unfold process_frame. destruct (f_type f =? FRAME_TYPE_SETTINGS); [reflexivity|].
    destruct (f_type f =? FRAME_TYPE_HEADERS); [|reflexivity]. destruct (headers_block f) as [block| | |]; try reflexivity. cbn [obind].
    destruct (hpack_decode T d block) as [[[hs|x] d']| | |]; try reflexivity. now rewrite (request_ext hs w Hw).
  Qed.
  Lemma read_ext c w : P w -> try_read_frame W app' cs T c w = try_read_frame W app cs T c w.
  Proof.
    intros Hw. unfold try_read_frame. destruct (lenZ (c_rbuf c) <? 9); [reflexivity|].
    destruct (fh_parse _) as [h| | |]; try reflexivity. cbn [obind]. now rewrite (frame_ext _ _ _ w Hw).
  Qed.
  Lemma dispatch_ext c w : P w -> dispatch W app' cs T c w = dispatch W app cs T c w.
  Proof.
    intros Hw. unfold dispatch. destruct (c_state c); try reflexivity; [|now apply read_ext].
    destruct (read_preface c) as [[[] c'] ev]; try reflexivity. now rewrite (read_ext c' w Hw).
  Qed.
  Lemma loop_ext fuel : forall s c w, P w -> internal_process W app' cs T fuel s c w = internal_process W app cs T fuel s c w.
  Proof.
    induction fuel as [|fuel IH]; intros s c w Hw; [reflexivity|]. cbn [internal_process].
    destruct (match c_state c with AwaitingHandshake => _ | _ => _ end) as [[[r c0] ev0] hs']. destruct r as [r|]; [reflexivity|].
    destruct (flush_write_buffer _ _) as [[c1 ev1] wr']. destruct (c_wbuf c1); [|reflexivity].
    destruct (fill_read_buffer _ _) as [[c2 ev2] rd']. rewrite (dispatch_ext c2 w Hw).
    destruct (dispatch W app cs T c2 w) as [[[[v3 c3] ev3] w3]| | |] eqn:E3; [|reflexivity..]. cbn [obind].
    destruct v3; [|reflexivity..]. rewrite IH; [reflexivity|]. apply dispatch_asks in E3. exact (handled_P _ _ _ E3 Hw).
  Qed.
  Lemma process_ext s c w : P w -> process W app' cs T s c w = process W app cs T s c w.
  Proof. intros Hw. unfold process. now rewrite loop_ext. Qed.

  Variable linux : bool.
  Variable listener : Z.
  Variable k0 : kernel.
  Variable w0 : W.
  Lemma events_ext fd m a s : P (sv_world W s) ->
    handle_connection_events linux W app' cs T fd m a s = handle_connection_events linux W app cs T fd m a s.
  Proof.
    intros Hw. unfold handle_connection_events. destruct (mget fd (sv_conns W s)) as [e|]; [|reflexivity].
    destruct (_ || _); [reflexivity|]. destruct (_ && _); [reflexivity|]. cbv zeta. rewrite process_ext; [reflexivity|].
    destruct (has_event m PWrite); [|exact Hw]. exact Hw.
  Qed.
  Hypothesis setting_ok : setting listener k0.
  Hypothesis start_P : P w0.
  Lemma reached_P ok A pending s : reached linux listener W app cs T k0 w0 ok A pending s -> P (sv_world W s).
  Proof.
    intros H. destruct setting_ok as [H1 H2]. destruct (reached_told _ _ _ _ _ _ _ _ H1 H2 _ _ _ _ H) as [_ (h & [_ _ K] & _)].
    exact (handled_P _ _ _ K start_P).
  Qed.
  Lemma reached_ext ok A pending s : reached linux listener W app cs T k0 w0 ok A pending s ->
    reached linux listener W app' cs T k0 w0 ok A pending s.
  Proof.
    intros H. induction H as [stopped|clock s H IH|it s evs p H IH Ho HA E|m a pending s s' H IH E|fd m a pending s s' H IH N E|pending s r H IH].
    - apply reached_start.
    - now apply reached_reap.
    - now apply (reached_poll linux listener W app' cs T k0 w0 ok A it).
    - exact (reached_incoming _ _ _ _ _ _ _ _ _ _ _ _ _ _ _ IH E).
    - eapply (reached_event linux listener W app' cs T k0 w0 ok A fd m a); [exact IH|exact N|]. rewrite events_ext; [exact E|exact (reached_P _ _ _ _ H)].
    - now apply reached_stop.
  Qed.
End Ext.
