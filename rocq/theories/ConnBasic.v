(** Invariants of sessions that do not depend on the contents of frames. *)
From Verif Require Import Base BaseLemmas SpecFrames Huffman DynTable HpackDec HpackEnc Frames FramesProofs Http Conn
  SpecConn ConnLemmas ConnRule.

Definition any {A} (_ : A) : Prop := True.

Lemma Forall_any {A} (l : list A) : Forall any l.
Proof. induction l; constructor; auto. exact I. Qed.

Section Basic.
  Variable W : Type.
  Variable app : request -> W -> W * app_answer.
  Variable cs : bool.
  Variable T : tree.
  Variable others : W -> W -> Prop.
  Variable t0 : Z.
  Variable w0 : W.
  Notation session := (session W app cs T others t0 w0).
  Notation dispatch := (dispatch W app cs T).

  Lemma session_weaken (A B : scripts -> Prop) r c tr w : (forall s, A s -> B s) ->
    session A r c tr w -> session B r c tr w.
  Proof. intros H. induction 1; [constructor|econstructor 2; eauto|econstructor 3; eauto]. Qed.

  Lemma session_any A r c tr w : session A r c tr w ->
    session (fun s => Forall any (sc_rd s) /\ Forall any (sc_wr s)) r c tr w.
  Proof. apply session_weaken. intros s _. split; apply Forall_any. Qed.

  (** Events of dispatch are never reads or writes. *)
  Lemma process_request_quiet hs w w' resp ev : process_request W app hs w = (w', resp, ev) -> quiet ev.
  Proof.
    intros H. apply process_request_inv in H as [(_ & _ & _ & ->)|(p & m & a & _ & _ & _ & [(_ & _ & ->)|(r & _ & _ & ->)])];
      repeat constructor.
  Qed.

  Lemma process_frame_quiet f d e w fe d' e' w' ev :
    process_frame W app cs T f d e w = Ret (fe, d', e', w', ev) -> quiet ev.
  Proof.
    intros H. apply process_frame_inv in H.
    destruct H as [H|[H|[H|[H|[H|[H|H]]]]]]; try (decompose [and] H; subst; repeat constructor).
    destruct H as (_ & block & _ & [H|[(er & H)|(hdrs & resp & evr & _ & Hr & H)]]);
      try (decompose [and] H; subst; constructor).
    apply process_request_quiet in Hr.
    destruct H as [(_ & _ & _ & ->)|(rs & _ & [(_ & _ & _ & ->)|(b & data & _ & _ & _ & ->)])]; auto.
    apply Forall_app. split; [auto|repeat constructor].
  Qed.

  Lemma try_read_frame_quiet c w v c' ev w' : all_bytes (c_rbuf c) ->
    try_read_frame W app cs T c w = Ret (v, c', ev, w') ->
    quiet ev /\ c_wbuf c' = c_wbuf c ++ queued ev /\ c_last c' = c_last c.
  Proof.
    intros Hb E. apply try_read_frame_inv in E; auto.
    destruct E as [(_ & -> & -> & _)|[(_ & -> & -> & _)|(o & rest & f & fe & d & e & Er & _ & Hp & Hfe)]].
    - split; [constructor|]. cbn. now rewrite app_nil_r.
    - split; [constructor|]. cbn. now rewrite app_nil_r.
    - apply process_frame_quiet in Hp. destruct fe; destruct Hfe as [_ ->]; auto.
  Qed.

  Definition quiet_or_shutdown (ev : trace) : Prop := quiet ev \/ ev = [EvShutdown].

  Lemma dispatch_quiet c w v c' ev w' : all_bytes (c_rbuf c) -> c_state c <> AwaitingHandshake ->
    dispatch c w = Ret (v, c', ev, w') ->
    quiet_or_shutdown ev /\ c_wbuf c' = c_wbuf c ++ queued ev /\ c_last c' = c_last c.
  Proof.
    intros Hb Hs E. apply dispatch_inv in E; auto.
    destruct E as [(_ & _ & _ & -> & -> & _)|[(_ & _ & _ & _ & -> & -> & _)|[(rest & ev2 & _ & Er & -> & E)|
      [(_ & E)|[(_ & _ & -> & -> & _)|[(_ & _ & -> & -> & _)|(_ & _ & -> & -> & _)]]]]]].
    - split; [left; constructor|]. cbn. now rewrite app_nil_r.
    - split; [left; constructor|]. cbn. now rewrite app_nil_r.
    - rewrite Er in Hb. apply all_bytes_app in Hb as [_ Hb].
      apply try_read_frame_quiet in E as (Hq & Hw & Hl); auto. cbn [c_wbuf c_last] in *.
      split; [left; now constructor|]. split; [|auto]. rewrite Hw. cbn [queued flat_map].
      now rewrite <- app_assoc.
    - apply try_read_frame_quiet in E as (Hq & Hw & Hl); auto. split; [now left|auto].
    - split; [now right|]. cbn. now rewrite app_nil_r.
    - split; [left; repeat constructor|easy].
    - split; [left; constructor|]. cbn. now rewrite app_nil_r.
  Qed.

  Lemma qos_received ev : quiet_or_shutdown ev -> received ev = [] /\ delivered ev = [].
  Proof. intros [H| ->]; [now apply quiet_received|easy]. Qed.

  (** ** C33 *)
  Lemma buffer_bounded A r c tr w : session A r c tr w -> buffered c.
  Proof.
    intros H. apply session_any in H. revert H.
    intros H. eapply (session_rule_buffered W app cs T others t0 w0 any any (fun _ _ _ => True) (fun _ _ _ _ => True)) in H;
      try now auto.
  Qed.

  Lemma incomplete_small c : incomplete (c_rbuf c) -> lenZ (c_rbuf c) < 9 + MAX_FRAME_SIZE.
  Proof. unfold MAX_FRAME_SIZE. intros [H|(h & _ & Hl & H)]; unfold MAX_FRAME_SIZE in *; lia. Qed.

  Lemma waiting_has_room A c tr w : session A (Some WantRead) c tr w -> lenZ (c_rbuf c) < 9 + MAX_FRAME_SIZE.
  Proof.
    intros H. apply session_any in H.
    eapply (session_rule_buffered W app cs T others t0 w0 any any
      (fun c _ _ => c_state c = AwaitingHandshake -> c_rbuf c = [])
      (fun r c _ _ => (c_state c = AwaitingHandshake -> c_rbuf c = []) /\
                      (r = WantRead -> lenZ (c_rbuf c) < 9 + MAX_FRAME_SIZE))) in H.
    - now apply H.
    - auto.
    - auto.
    - auto.
    - intros now c1 tr1 w1 HP Es. cbn. easy.
    - intros c1 tr1 w1 HP Es. split; auto. intros _. now rewrite HP.
    - intros e1 c1 tr1 w1 HP Es _. now split.
    - intros wr c1 tr1 w1 c2 ev wr' _ _ _ Hs E. apply flush_state in E; auto. easy.
    - intros c1 tr1 w1 HP _ _. split; auto. easy.
    - intros. cbn in *. easy.
    - intros now e c1 tr1 w1 HP _ _ Hs _. destruct e; cbn; easy.
    - intros c1 tr1 w1 c2 ev w2 _ [Hb _] _ Hs E Es. exfalso. apply dispatch_inv in E; auto.
      destruct E as [(_ & _ & ? & _)|[(_ & _ & _ & ? & _)|[(rest & ev2 & _ & Er & _ & E)|
        [(Ef & E)|[(_ & ? & _)|[(_ & ? & _)|(_ & ? & _)]]]]]]; try easy.
      + rewrite Er in Hb. apply all_bytes_app in Hb as [_ Hb].
        apply try_read_frame_inv in E; auto.
        destruct E as [(? & _)|[(_ & -> & _)|(o & r2 & f & fe & d & e & _ & _ & Hp & Hfe)]]; try easy.
        apply process_frame_inv in Hp. destruct fe as [|st|]; destruct Hfe as [? ->]; cbn in Es; try congruence.
        subst st. decompose [or and ex] Hp; congruence.
      + apply try_read_frame_inv in E; auto.
        destruct E as [(? & _)|[(_ & -> & _)|(o & r2 & f & fe & d & e & _ & _ & Hp & Hfe)]]; try easy.
        apply process_frame_inv in Hp. destruct fe as [|st|]; destruct Hfe as [? ->]; cbn in Es; try congruence.
        subst st. decompose [or and ex] Hp; congruence.
    - intros c1 tr1 w1 r1 c2 ev w2 _ [Hb _] _ Hs E. apply dispatch_inv in E; auto.
      assert (X : forall x, c_rbuf x = c_rbuf c2 -> True) by auto.
      destruct E as [(Es & Hl & [= ->] & -> & _)|[(_ & _ & _ & [= ->] & -> & _)|[(rest & ev2 & _ & Er & _ & E)|
        [(Ef & E)|[(_ & [= ->] & -> & _)|[(_ & [= ->] & -> & _)|(_ & [= ->] & -> & _)]]]]]];
        try (split; [cbn; congruence|easy]).
      + split; [congruence|]. intros _. unfold MAX_FRAME_SIZE. lia.
      + rewrite Er in Hb. apply all_bytes_app in Hb as [_ Hb].
        apply try_read_frame_inv in E; auto.
        destruct E as [([= ->] & -> & _ & _ & Hi)|[(? & _)|(o & r2 & f & fe & d & e & _ & _ & Hp & Hfe)]]; try easy.
        * split; [cbn; easy|]. intros _. now apply incomplete_small in Hi.
        * destruct fe; destruct Hfe as [? _]; easy.
      + apply try_read_frame_inv in E; auto.
        destruct E as [([= ->] & -> & _ & _ & Hi)|[(? & _)|(o & r2 & f & fe & d & e & _ & _ & Hp & Hfe)]]; try easy.
        * split; [congruence|]. intros _. now apply incomplete_small in Hi.
        * destruct fe; destruct Hfe as [? _]; easy.
    - intros. cbn. split; easy.
    - intros r1 c1 tr1 w1 [H1 _] _. exact H1.
  Qed.

  (** ** C46 *)
  Lemma last_success_app a : forall t b, last_success t (a ++ b) = last_success (last_success t a) b.
  Proof. induction a as [|e a IH]; intros t b; [easy|]. destruct e as [| | | | |? ? ? []| | |]; cbn; apply IH. Qed.
  Lemma last_success_qos ev t : quiet_or_shutdown ev -> last_success t ev = t.
  Proof. intros [H| ->]; [|easy]. induction H as [|e ev He _ IH]; [easy|]. now destruct e. Qed.

  Lemma activity_time A r c tr w : session A r c tr w -> c_last c = last_success t0 tr.
  Proof.
    intros H. apply session_any in H.
    eapply (session_rule_buffered W app cs T others t0 w0 any any
      (fun c tr _ => c_last c = last_success t0 tr) (fun _ c tr _ => c_last c = last_success t0 tr)) in H;
      auto.
    - destruct r; apply H.
    - intros. now rewrite last_success_app.
    - intros. now rewrite last_success_app.
    - intros wr c1 tr1 w1 c2 ev wr' HP _ _ _ E. rewrite last_success_app, <- HP.
      unfold flush_write_buffer in E. destruct (c_wbuf c1); [injection E as <- <- _; easy|].
      destruct wr as [|[now [n|k|e]] wr]; injection E as <- <- _; try easy. now destruct e.
    - intros. now rewrite last_success_app.
    - intros now e c1 tr1 w1 HP _ _ _ _. rewrite last_success_app. now destruct e.
    - intros c1 tr1 w1 c2 ev w2 HP [Hb _] _ Hs E. apply dispatch_quiet in E as (Hq & _ & ->); auto.
      now rewrite last_success_app, last_success_qos.
    - intros c1 tr1 w1 r1 c2 ev w2 HP [Hb _] _ Hs E. apply dispatch_quiet in E as (Hq & _ & ->); auto.
      now rewrite last_success_app, last_success_qos.
    - intros c1 tr1 w1 c2 ev w2 HP [Hb _] _ Hs E. apply dispatch_quiet in E as (Hq & _ & El); auto.
      cbn [set_state c_last]. now rewrite last_success_app, last_success_qos, El.
  Qed.

  Lemma timed_out_iff A r c tr w now : session A r c tr w ->
    has_timed_out now c = true <-> now - last_success t0 tr > 5000000000.
  Proof. intros H. unfold has_timed_out, IDLE_TIMEOUT. rewrite (activity_time _ _ _ _ _ H). lia. Qed.

  (** ** C32 *)
  Definition whole_writes (x : Z * wr_result) : Prop := match snd x with WrPartial k => k <= 0 | _ => True end.

  Lemma no_loss r c tr w :
    session (fun s => Forall any (sc_rd s) /\ Forall whole_writes (sc_wr s)) r c tr w ->
    delivered tr ++ c_wbuf c = queued tr.
  Proof.
    intros H.
    eapply (session_rule_buffered W app cs T others t0 w0 any whole_writes
      (fun c tr _ => delivered tr ++ c_wbuf c = queued tr)
      (fun _ c tr _ => delivered tr ++ c_wbuf c = queued tr)) in H; auto.
    - destruct r; apply H.
    - intros. now rewrite delivered_app, queued_app, !app_nil_r.
    - intros. now rewrite delivered_app, queued_app, !app_nil_r.
    - intros wr c1 tr1 w1 c2 ev wr' HP _ Hal _ E. rewrite delivered_app, queued_app, <- HP.
      unfold flush_write_buffer in E. destruct (c_wbuf c1) as [|x xs] eqn:Ew.
      { injection E as <- <- _. now rewrite Ew, !app_nil_r. }
      destruct wr as [|[now [n|k|e]] wr].
      + injection E as <- <- _. cbn. now rewrite Ew, !app_nil_r.
      + injection E as <- <- _. cbn [c_wbuf delivered queued flat_map]. rewrite !app_nil_r, <- app_assoc.
        now rewrite firstn_skipn.
      + inversion Hal as [|? ? Hk _]; subst. cbn in Hk.
        injection E as <- <- _. replace (Z.to_nat k) with O by lia. cbn. now rewrite Ew, !app_nil_r.
      + injection E as <- <- _. destruct e; cbn; now rewrite Ew, !app_nil_r.
    - intros. now rewrite delivered_app, queued_app, !app_nil_r.
    - intros now e c1 tr1 w1 HP _ _ _ _. rewrite delivered_app, queued_app, !app_nil_r. now destruct e.
    - intros c1 tr1 w1 c2 ev w2 HP [Hb _] _ Hs E. apply dispatch_quiet in E as (Hq & -> & _); auto.
      apply qos_received in Hq as [_ Hd]. now rewrite delivered_app, queued_app, Hd, app_nil_r, <- HP, <- app_assoc.
    - intros c1 tr1 w1 r1 c2 ev w2 HP [Hb _] _ Hs E. apply dispatch_quiet in E as (Hq & -> & _); auto.
      apply qos_received in Hq as [_ Hd]. now rewrite delivered_app, queued_app, Hd, app_nil_r, <- HP, <- app_assoc.
    - intros c1 tr1 w1 c2 ev w2 HP [Hb _] _ Hs E. apply dispatch_quiet in E as (Hq & Ew & _); auto.
      cbn [set_state c_wbuf]. rewrite Ew.
      apply qos_received in Hq as [_ Hd]. now rewrite delivered_app, queued_app, Hd, app_nil_r, <- HP, <- app_assoc.
  Qed.

  (** ** C71 *)
  Fixpoint last_write (tr : trace) (acc : option (bytes * expected transport_error Z)) :=
    match tr with
    | [] => acc
    | EvWrite _ o _ res :: r => last_write r (Some (o, res))
    | _ :: r => last_write r acc
    end.
  Lemma last_write_app a : forall b acc, last_write (a ++ b) acc = last_write b (last_write a acc).
  Proof. induction a as [|e a IH]; intros; [easy|]. destruct e; cbn; apply IH. Qed.
  Lemma last_write_none b acc : Forall (fun e => is_write e = false) b -> last_write b acc = acc.
  Proof. induction 1 as [|e b H _ IH]; [easy|]. destruct e; cbn; easy. Qed.
  Lemma qos_no_write ev : quiet_or_shutdown ev -> Forall (fun e => is_write e = false) ev.
  Proof. intros [H| ->]; [|repeat constructor]. induction H as [|e ev He _ IH]; constructor; auto. now destruct e. Qed.

  Definition retried (tr : trace) : Prop := forall a t o k b t' o' k' res' d,
    tr = a ++ EvWrite t o k (Error WantReadOrWrite) :: b ++ EvWrite t' o' k' res' :: d ->
    Forall (fun e => is_write e = false) b -> o' = o.

  Definition pending (c : conn) (tr : trace) : Prop :=
    match last_write tr None with
    | Some (o, Error WantReadOrWrite) => c_wbuf c = o /\ o <> []
    | _ => True
    end.

  Lemma retried_no_write tr ev : Forall (fun e => is_write e = false) ev -> retried tr -> retried (tr ++ ev).
  Proof.
    intros He. revert tr. induction He as [|e ev He _ IH]; intros tr H; [now rewrite app_nil_r|].
    replace (tr ++ e :: ev) with ((tr ++ [e]) ++ ev) by now rewrite <- app_assoc. apply IH.
    intros a t o k b t' o' k' res' d E Hb.
    destruct d as [|x d] using rev_ind.
    - exfalso. change (EvWrite t o k (Error WantReadOrWrite) :: b ++ [EvWrite t' o' k' res']) with
        ((EvWrite t o k (Error WantReadOrWrite) :: b) ++ [EvWrite t' o' k' res']) in E.
      rewrite app_assoc in E. apply app_inj_tail in E as [_ ->]. easy.
    - replace (a ++ EvWrite t o k (Error WantReadOrWrite) :: b ++ EvWrite t' o' k' res' :: d ++ [x]) with
        ((a ++ EvWrite t o k (Error WantReadOrWrite) :: b ++ EvWrite t' o' k' res' :: d) ++ [x]) in E
        by (rewrite <- !app_assoc; cbn; rewrite <- !app_assoc; reflexivity).
      apply app_inj_tail in E as [E _]. eapply H; eauto.
  Qed.

  Lemma retried_write tr t' o' k' res' c : retried tr -> pending c tr -> c_wbuf c = o' ->
    retried (tr ++ [EvWrite t' o' k' res']).
  Proof.
    intros H Hp Ho a t o k b t2 o2 k2 res2 d E Hb.
    destruct d as [|x d] using rev_ind.
    - change (EvWrite t o k (Error WantReadOrWrite) :: b ++ [EvWrite t2 o2 k2 res2]) with
        ((EvWrite t o k (Error WantReadOrWrite) :: b) ++ [EvWrite t2 o2 k2 res2]) in E.
      rewrite app_assoc in E. apply app_inj_tail in E as [-> [= <- <- <- <-]].
      unfold pending in Hp. rewrite last_write_app in Hp. cbn [last_write] in Hp.
      rewrite last_write_none in Hp by auto. destruct Hp as [<- _]. easy.
    - replace (a ++ EvWrite t o k (Error WantReadOrWrite) :: b ++ EvWrite t2 o2 k2 res2 :: d ++ [x]) with
        ((a ++ EvWrite t o k (Error WantReadOrWrite) :: b ++ EvWrite t2 o2 k2 res2 :: d) ++ [x]) in E
        by (rewrite <- !app_assoc; cbn; rewrite <- !app_assoc; reflexivity).
      apply app_inj_tail in E as [E _]. eapply H; eauto.
  Qed.

  Lemma pending_no_write c c' tr ev : Forall (fun e => is_write e = false) ev -> pending c tr -> c_wbuf c' = c_wbuf c ->
    pending c' (tr ++ ev).
  Proof. intros He Hp E. unfold pending. rewrite last_write_app, last_write_none, E; auto. Qed.

  (** With an empty buffer no blocked write is outstanding. *)
  Lemma pending_empty c c' tr ev : Forall (fun e => is_write e = false) ev -> pending c tr -> c_wbuf c = [] ->
    pending c' (tr ++ ev).
  Proof.
    intros He Hp E. unfold pending in *. rewrite last_write_app, last_write_none by auto.
    destruct (last_write tr None) as [[o [v|[]]]|]; auto. rewrite E in Hp. destruct Hp. congruence.
  Qed.

  Lemma blocked_write_retried A r c tr w : session A r c tr w -> retried tr.
  Proof.
    intros H. apply session_any in H.
    eapply (session_rule_buffered W app cs T others t0 w0 any any
      (fun c tr _ => retried tr /\ pending c tr) (fun _ c tr _ => retried tr /\ pending c tr)) in H; auto.
    - destruct r; apply H.
    - split; [|exact I]. intros a t o k b t' o' k' res' d E. destruct a; easy.
    - intros now c1 tr1 w1 [H1 H2] _. split; [apply retried_no_write; [repeat constructor|auto]|].
      eapply pending_no_write; eauto.
    - intros e c1 tr1 w1 [H1 H2] _ _. split; [apply retried_no_write; [repeat constructor|auto]|].
      eapply pending_no_write; eauto.
    - intros wr c1 tr1 w1 c2 ev wr' [H1 H2] _ _ _ E.
      unfold flush_write_buffer in E. destruct (c_wbuf c1) as [|x xs] eqn:Ew.
      { injection E as <- <- _. rewrite app_nil_r. auto. }
      destruct wr as [|[now [n|k|e]] wr]; injection E as <- <- _;
        (split; [eapply retried_write; eauto|unfold pending; rewrite last_write_app; cbn; auto]).
      + rewrite Ew. easy.
      + destruct e; auto. rewrite Ew. easy.
    - intros now o c1 tr1 w1 [H1 H2] _ Hw _ _ _ _ _. split; [apply retried_no_write; [repeat constructor|auto]|].
      eapply pending_no_write; eauto.
    - intros now e c1 tr1 w1 [H1 H2] _ Hw _ _. split; [apply retried_no_write; [repeat constructor|auto]|].
      eapply pending_no_write; eauto. now destruct e.
    - intros c1 tr1 w1 c2 ev w2 [H1 H2] [Hb _] Hw Hs E. apply dispatch_quiet in E as (Hq & _); auto.
      apply qos_no_write in Hq. split; [now apply retried_no_write|eapply pending_empty; eauto].
    - intros c1 tr1 w1 r1 c2 ev w2 [H1 H2] [Hb _] Hw Hs E. apply dispatch_quiet in E as (Hq & _); auto.
      apply qos_no_write in Hq. split; [now apply retried_no_write|eapply pending_empty; eauto].
    - intros c1 tr1 w1 c2 ev w2 [H1 H2] [Hb _] Hw Hs E. apply dispatch_quiet in E as (Hq & _); auto.
      apply qos_no_write in Hq. split; [now apply retried_no_write|].
      eapply pending_empty; [exact Hq|exact H2|exact Hw].
  Qed.
End Basic.
