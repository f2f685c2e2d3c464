(** What a session has done, in terms of the frames it received. *)
From Verif Require Import Base BaseLemmas SpecFrames Huffman DynTable HpackDec HpackEnc Frames FramesProofs Http Conn
  SpecConn ConnLemmas ConnRule ConnBasic.

(** The events a client or the application can see, apart from the transport. *)
Definition is_act (e : event) : bool :=
  match e with EvQueue _ | EvRequest _ _ | EvLog _ _ _ => true | _ => false end.
Definition acts (tr : trace) : trace := filter is_act tr.

Lemma acts_app a b : acts (a ++ b) = acts a ++ acts b.
Proof. apply filter_app. Qed.
Lemma acts_quiet ev : quiet ev -> acts ev = ev.
Proof.
  induction 1 as [|e ev H _ IH]; [easy|]. unfold acts in *. cbn [filter].
  destruct e; cbn; try easy; now rewrite IH.
Qed.

Lemma queued_acts tr : queued (acts tr) = queued tr.
Proof.
  unfold queued, acts. induction tr as [|e tr IH]; [easy|]. cbn [filter flat_map].
  destruct e; cbn [is_act flat_map app]; now rewrite IH.
Qed.
Lemma requests_acts tr : requests (acts tr) = requests tr.
Proof.
  unfold requests, acts. induction tr as [|e tr IH]; [easy|]. cbn [filter flat_map].
  destruct e; cbn [is_act flat_map app]; now rewrite IH.
Qed.
Lemma logged_acts tr : logged (acts tr) = logged tr.
Proof.
  unfold logged, acts. induction tr as [|e tr IH]; [easy|]. cbn [filter flat_map].
  destruct e; cbn [is_act flat_map app]; now rewrite IH.
Qed.

Definition bye : event := EvQueue (write_goaway 1 1).

Section Run.
  Variable W : Type.
  Variable app : request -> W -> W * app_answer.
  Variable cs : bool.
  Variable T : tree.
  Variable others : W -> W -> Prop.
  Variable t0 : Z.
  Variable w0 : W.
  Notation process_frame := (process_frame W app cs T).
  Notation try_read_frame := (try_read_frame W app cs T).
  Notation dispatch := (dispatch W app cs T).
  Notation session := (session W app cs T others t0 w0).
  Notation table0 := (dt_init DEFAULT_MAX_TABLE_SIZE).

  (** The frames [fs], with octets [os], were all handled normally. *)
  Inductive ran : list bytes -> list frame -> dyn_table -> dyn_table -> W -> trace -> Prop :=
  | ran_nil : ran [] [] table0 table0 w0 []
  | ran_others : forall os fs d e w w' ev, ran os fs d e w ev -> others w w' -> ran os fs d e w' ev
  | ran_snoc : forall os fs d e w ev o f d' e' w' ev', ran os fs d e w ev -> chunk o f ->
      process_frame f d e w = Ret (FrameDone, d', e', w', ev') ->
      ran (os ++ [o]) (fs ++ [f]) d' e' w' (ev ++ ev').

  (** A frame ends the connection by putting it into state [s]. *)
  Inductive ends (d e : dyn_table) (w : W) : bytes -> conn_state -> Prop :=
  | ends_frame : forall o f r s d' e' w' ev', chunk o f ->
      process_frame f d e w = Ret (FrameState s, d', e', w', ev') -> ends d e w (o ++ r) s
  | ends_oversized : forall r, oversized r -> ends d e w r StProtocolError.

  Definition pre_dead (tr : trace) : Prop := acts tr = [] /\ delivered tr = [] /\ ~ fault_free tr.
  Definition post_dead (s : conn_state) (tr : trace) : Prop :=
    exists os fs d e w ev rest, received tr = CLIENT_PREFACE ++ concat os ++ rest /\ ran os fs d e w ev /\
      acts tr = EvQueue write_settings :: ev /\ (fault_free tr -> ends d e w rest s).

  Definition P (c : conn) (tr : trace) (w : W) : Prop :=
    match c_state c with
    | AwaitingHandshake => received tr = [] /\ c_rbuf c = [] /\ c_wbuf c = [] /\ acts tr = [] /\ delivered tr = [] /\
        ran [] [] (c_dec c) (c_enc c) w []
    | AwaitingPreface => received tr = c_rbuf c /\ c_wbuf c = [] /\ acts tr = [] /\ delivered tr = [] /\
        ran [] [] (c_dec c) (c_enc c) w []
    | AwaitingFrame => exists os fs ev, received tr = CLIENT_PREFACE ++ concat os ++ c_rbuf c /\
        acts tr = EvQueue write_settings :: ev /\ ran os fs (c_dec c) (c_enc c) w ev
    | Closing => False
    | s => (c_wbuf c = [] /\ pre_dead tr) \/ post_dead s tr
    end.

  Definition thrown (d e : dyn_table) (w : W) (rest : bytes) (last : trace) : Prop :=
    exists o f r d' e' w', rest = o ++ r /\ chunk o f /\ process_frame f d e w = Ret (FrameThrows, d', e', w', last).

  Definition discarded (tr : trace) : Prop :=
    (received tr = [] /\ acts tr = [] /\ delivered tr = [] /\ ~ fault_free tr) \/
    (24 <= lenZ (received tr) /\ firstn 24 (received tr) <> CLIENT_PREFACE /\ acts tr = [] /\ delivered tr = []) \/
    ((acts tr = [] \/ acts tr = [bye]) /\ delivered tr = [] /\ ~ fault_free tr) \/
    (exists os fs d e w ev rest last, received tr = CLIENT_PREFACE ++ concat os ++ rest /\ ran os fs d e w ev /\
      acts tr = EvQueue write_settings :: ev ++ last /\
      (((last = [] \/ last = [bye]) /\
        (fault_free tr -> exists s, ends d e w rest s /\ last = match s with StProtocolError => [bye] | _ => [] end)) \/
       thrown d e w rest last)).

  Definition Q (r : result) (c : conn) (tr : trace) (w : W) : Prop :=
    match r with
    | WantRead => P c tr w /\
        match c_state c with
        | AwaitingHandshake => True
        | AwaitingPreface => lenZ (c_rbuf c) < 24
        | AwaitingFrame => incomplete (c_rbuf c) /\
            (c_wbuf c = [] \/ (c_wbuf c = write_settings /\ delivered tr = [] /\ acts tr = [EvQueue write_settings]))
        | _ => False
        end
    | WantWrite => P c tr w /\ c_wbuf c <> []
    | DiscardConnection => discarded tr
    end.

  Lemma fault_free_app a b : fault_free (a ++ b) <-> fault_free a /\ fault_free b.
  Proof. apply Forall_app. Qed.

  Lemma chunk_app_oversized r o : oversized r -> oversized (r ++ o).
  Proof.
    intros (H9 & h & E & Hm). split; [rewrite lenZ_app; pose proof (lenZ_nonneg o); lia|].
    exists h. split; auto. rewrite firstn_app_long; auto. unfold lenZ in H9. lia.
  Qed.

  Lemma ends_more d e w rest s o : ends d e w rest s -> ends d e w (rest ++ o) s.
  Proof.
    intros [o1 f r s' d' e' w' ev' Hc Hp|r Ho].
    - rewrite <- app_assoc. eapply ends_frame; eauto.
    - constructor. now apply chunk_app_oversized.
  Qed.

  (** Transport events leave the frame-level history alone. *)
  Lemma post_dead_more s tr ev : post_dead s tr -> acts ev = [] -> post_dead s (tr ++ ev).
  Proof.
    intros (os & fs & d & e & w & e1 & rest & Hr & Hrun & Ha & Hf) He.
    exists os, fs, d, e, w, e1, (rest ++ received ev).
    split; [rewrite received_app, Hr, <- !app_assoc; reflexivity|]. split; [auto|].
    split; [now rewrite acts_app, He, app_nil_r|].
    intros Hff. apply fault_free_app in Hff as [Hff _]. now apply ends_more, Hf.
  Qed.

  Lemma post_dead_fault s s' tr ev : post_dead s tr -> acts ev = [] -> ~ fault_free ev -> post_dead s' (tr ++ ev).
  Proof.
    intros (os & fs & d & e & w & e1 & rest & Hr & Hrun & Ha & Hf) He Hn.
    exists os, fs, d, e, w, e1, (rest ++ received ev).
    split; [rewrite received_app, Hr, <- !app_assoc; reflexivity|]. split; [auto|].
    split; [now rewrite acts_app, He, app_nil_r|].
    intros Hff. apply fault_free_app in Hff as [_ Hff]. easy.
  Qed.

  Lemma alive_fault os fs d e w e1 rest tr ev s : received tr = CLIENT_PREFACE ++ concat os ++ rest ->
    ran os fs d e w e1 -> acts tr = EvQueue write_settings :: e1 -> acts ev = [] -> ~ fault_free ev ->
    post_dead s (tr ++ ev).
  Proof.
    intros Hr Hrun Ha He Hn. exists os, fs, d, e, w, e1, (rest ++ received ev).
    split; [rewrite received_app, Hr, <- !app_assoc; reflexivity|]. split; [auto|].
    split; [now rewrite acts_app, He, app_nil_r|].
    intros Hff. apply fault_free_app in Hff as [_ Hff]. easy.
  Qed.

  (** A fault moves any live or dead connection to a dead state. *)
  Lemma fault_dead c tr w ev s : P c tr w -> c_state c <> AwaitingHandshake -> acts ev = [] -> ~ fault_free ev ->
    delivered ev = [] \/ c_wbuf c <> [] ->
    (c_wbuf c = [] /\ pre_dead (tr ++ ev)) \/ post_dead s (tr ++ ev).
  Proof.
    intros HP Hs He Hn Hd. unfold P in HP. destruct (c_state c) eqn:Es; try easy.
    - left. destruct HP as (_ & Hw & Ha & Hdl & _). split; auto. split; [now rewrite acts_app, Ha|].
      split; [rewrite delivered_app, Hdl; destruct Hd; [auto|congruence]|].
      intros Hff. apply fault_free_app in Hff as [_ Hff]. easy.
    - right. destruct HP as (os & fs & e1 & Hr & Ha & Hrun). eapply alive_fault; eauto.
    - destruct HP as [[Hw (Ha & Hdl & Hff)]|HP]; [left|right; eapply post_dead_fault; eauto].
      split; auto. split; [now rewrite acts_app, Ha|].
      split; [rewrite delivered_app, Hdl; destruct Hd; [auto|congruence]|].
      intros Hf. apply fault_free_app in Hf as [_ Hf]. easy.
    - destruct HP as [[Hw (Ha & Hdl & Hff)]|HP]; [left|right; eapply post_dead_fault; eauto].
      split; auto. split; [now rewrite acts_app, Ha|].
      split; [rewrite delivered_app, Hdl; destruct Hd; [auto|congruence]|].
      intros Hf. apply fault_free_app in Hf as [_ Hf]. easy.
  Qed.

  (** Nothing is offered to the transport before the preface. *)
  Lemma P_transport c c' tr w ev : P c tr w -> c_state c <> AwaitingHandshake -> acts ev = [] ->
    c_state c' = c_state c -> c_rbuf c' = c_rbuf c ++ received ev -> c_dec c' = c_dec c -> c_enc c' = c_enc c ->
    (c_wbuf c = [] -> c_wbuf c' = [] /\ delivered ev = []) -> P c' (tr ++ ev) w.
  Proof.
    intros HP Hs He E1 E2 E3 E4 Hw. unfold P in *. rewrite E1, E2, E3, E4. destruct (c_state c) eqn:Es; try easy.
    - destruct HP as (Hr & Hw0 & Ha & Hd & Hrun). destruct (Hw Hw0) as [Hw1 Hd1].
      split; [now rewrite received_app, Hr|]. split; [auto|].
      split; [now rewrite acts_app, Ha|]. split; [now rewrite delivered_app, Hd|auto].
    - destruct HP as (os & fs & e1 & Hr & Ha & Hrun). exists os, fs, e1.
      split; [rewrite received_app, Hr, <- !app_assoc; reflexivity|].
      split; [now rewrite acts_app, He, app_nil_r|auto].
    - destruct HP as [[Hw0 (Ha & Hd & Hff)]|HP]; [left|right; now apply post_dead_more].
      destruct (Hw Hw0) as [Hw1 Hd1]. split; auto. split; [now rewrite acts_app, Ha|].
      split; [now rewrite delivered_app, Hd|]. intros Hf. apply fault_free_app in Hf as [Hf _]. easy.
    - destruct HP as [[Hw0 (Ha & Hd & Hff)]|HP]; [left|right; now apply post_dead_more].
      destruct (Hw Hw0) as [Hw1 Hd1]. split; auto. split; [now rewrite acts_app, Ha|].
      split; [now rewrite delivered_app, Hd|]. intros Hf. apply fault_free_app in Hf as [Hf _]. easy.
  Qed.

  Lemma flush_P wr c tr w c' ev wr' : P c tr w -> c_state c <> AwaitingHandshake ->
    flush_write_buffer wr c = (c', ev, wr') -> P c' (tr ++ ev) w.
  Proof.
    intros HP Hs E. unfold flush_write_buffer in E. destruct (c_wbuf c) as [|x xs] eqn:Ew.
    { injection E as <- <- _. now rewrite app_nil_r. }
    assert (F : forall ev0, acts ev0 = [] -> ~ fault_free ev0 -> P (set_state StProtocolError c) (tr ++ ev0) w).
    { intros ev0 Ha Hn. unfold P. cbn [set_state c_state c_wbuf]. eapply fault_dead; eauto. right. congruence. }
    destruct wr as [|[now [n|k|e]] wr].
    - injection E as <- <- _. eapply P_transport; eauto; cbn; auto; try congruence. now rewrite app_nil_r.
    - injection E as <- <- _. eapply P_transport; eauto; cbn [c_rbuf c_wbuf c_state c_dec c_enc]; auto; try congruence.
      cbn. now rewrite app_nil_r.
    - injection E as <- <- _. apply F; auto. intros Hf. inversion Hf; subst. easy.
    - destruct e.
      + injection E as <- <- _. eapply P_transport; eauto; cbn; auto; try congruence. now rewrite app_nil_r.
      + injection E as <- <- _. apply F; auto. intros Hf. inversion Hf; subst. easy.
      + injection E as <- <- _. apply F; auto. intros Hf. inversion Hf; subst. easy.
      + injection E as <- <- _. apply F; auto. intros Hf. inversion Hf; subst. easy.
      + injection E as <- <- _. apply F; auto. intros Hf. inversion Hf; subst. easy.
  Qed.

  (** Reading one frame. *)
  Lemma try_read_run c tr w v c' ev w' os fs e1 : all_bytes (c_rbuf c) ->
    c_state c = AwaitingFrame ->
    received tr = CLIENT_PREFACE ++ concat os ++ c_rbuf c -> acts tr = EvQueue write_settings :: e1 ->
    ran os fs (c_dec c) (c_enc c) w e1 ->
    try_read_frame c w = Ret (v, c', ev, w') ->
    match v with
    | Continue => P c' (tr ++ ev) w'
    | Return r => r = WantRead /\ P c' (tr ++ ev) w' /\ c' = c /\ ev = [] /\ incomplete (c_rbuf c)
    | Exception => discarded (tr ++ ev)
    end.
  Proof.
    intros Hb Es Hr Ha Hrun E. pose proof E as E'. apply try_read_frame_inv in E; auto.
    apply try_read_frame_quiet in E' as (Hq & _); auto.
    destruct E as [(-> & -> & -> & -> & Hi)|[(-> & -> & -> & -> & Ho)|(o & rest & f & fe & d & e & Er & Hc & Hp & Hfe)]].
    - rewrite app_nil_r. repeat split; auto. unfold P. rewrite Es. eauto 10.
    - rewrite app_nil_r. unfold P. cbn [set_state c_state]. right.
      exists os, fs, (c_dec c), (c_enc c), w, e1, (c_rbuf c). repeat (split; auto). intros _. now constructor.
    - pose proof (acts_quiet _ Hq) as Haq. destruct (quiet_received _ Hq) as [Hrq _].
      assert (Hr2 : received (tr ++ ev) = CLIENT_PREFACE ++ concat os ++ o ++ rest).
      { now rewrite received_app, Hrq, app_nil_r, Hr, Er. }
      assert (Ha2 : acts (tr ++ ev) = EvQueue write_settings :: e1 ++ ev).
      { now rewrite acts_app, Ha, Haq. }
      destruct fe as [|s|]; destruct Hfe as [-> ->].
      + unfold P. cbn [c_state c_rbuf c_dec c_enc]. rewrite Es. exists (os ++ [o]), (fs ++ [f]), (e1 ++ ev).
        split; [rewrite Hr2, concat_app; cbn [concat]; now rewrite app_nil_r, <- !app_assoc|].
        split; [auto|]. eapply ran_snoc; eauto.
      + assert (ev = [] /\ (s = StProtocolError \/ s = ClientClosed)) as [-> Hs].
        { apply process_frame_inv in Hp. destruct Hp as [H|[H|[H|[H|[H|[H|H]]]]]];
            try (decompose [and] H; congruence).
          - decompose [and] H; subst; split; auto. left; congruence.
          - decompose [and] H; subst; split; auto. right; congruence.
          - destruct H as (_ & b & _ & [H|[(er & H)|(hs & resp & evr & _ & _ & [H|(rs & _ & [H|(b' & dt & H)])])]]);
              decompose [and] H; try congruence. split; auto. left; congruence. }
        rewrite !app_nil_r in Ha2. rewrite (app_nil_r tr) in *.
        assert (PD : post_dead s tr).
        { exists os, fs, (c_dec c), (c_enc c), w, e1, (o ++ rest). repeat (split; auto).
          intros _. eapply ends_frame; eauto. }
        unfold P. cbn [c_state c_wbuf]. destruct Hs as [->| ->]; right; exact PD.
      + do 3 right. exists os, fs, (c_dec c), (c_enc c), w, e1, (o ++ rest), ev.
        repeat (split; auto). right. exists o, f, rest, d, e, w'. auto.
  Qed.

  Lemma dead_dispatch s tr last : (last = [] \/ last = [bye]) ->
    last = match s with StProtocolError => [bye] | _ => [] end ->
    (pre_dead tr \/ post_dead s tr) -> discarded (tr ++ last).
  Proof.
    intros Hl Hls HP. assert (Hal : acts last = last) by (destruct Hl; subst last; destruct s; easy).
    assert (Hrl : received last = [] /\ delivered last = []) by (destruct Hl as [->| ->]; easy).
    destruct Hrl as [Hrl Hdl].
    destruct HP as [(Ha & Hd & Hff)|(os & fs & d & e & w & e1 & rest & Hr & Hrun & Ha & Hf)].
    - do 2 right. left. split; [rewrite acts_app, Ha, Hal; auto|].
      split; [now rewrite delivered_app, Hd|]. intros H. apply fault_free_app in H as [H _]. easy.
    - do 3 right. exists os, fs, d, e, w, e1, rest, last.
      split; [now rewrite received_app, Hrl, app_nil_r|]. split; [auto|].
      split; [now rewrite acts_app, Ha, Hal|]. left. split; auto.
      intros H. apply fault_free_app in H as [H _]. exists s. split; auto.
  Qed.

  Lemma dispatch_run c tr w v c' ev w' : P c tr w -> buffered c -> c_wbuf c = [] -> c_state c <> AwaitingHandshake ->
    dispatch c w = Ret (v, c', ev, w') ->
    match v with
    | Continue => P c' (tr ++ ev) w'
    | Return r => Q r c' (tr ++ ev) w'
    | Exception => discarded (tr ++ ev)
    end.
  Proof.
    intros HP [Hb _] Hw Hs E. apply dispatch_inv in E; auto.
    destruct E as [(Es & Hl & -> & -> & -> & ->)|[(Es & Hl & Hne & -> & -> & -> & ->)|[(rest & ev2 & Es & Er & -> & E)|
      [(Es & E)|[(Es & _)|[(Es & -> & -> & -> & ->)|(Es & -> & -> & -> & ->)]]]]]].
    - rewrite app_nil_r. split; auto. now rewrite Es.
    - rewrite app_nil_r. unfold P in HP. rewrite Es in HP. destruct HP as (Hr & _ & Ha & Hd & _).
      right. left. rewrite Hr. auto.
    - unfold P in HP. rewrite Es in HP. destruct HP as (Hr & _ & Ha & Hd & Hrun).
      set (c0 := Conn AwaitingFrame rest (c_wbuf c ++ write_settings) (c_dec c) (c_enc c) (c_last c)) in E.
      assert (Hb0 : all_bytes (c_rbuf c0)) by (rewrite Er in Hb; apply all_bytes_app in Hb as [_ Hb]; exact Hb).
      apply (try_read_run c0 (tr ++ [EvQueue write_settings]) w v c' ev2 w' [] [] []) in E; auto.
      + replace (tr ++ EvQueue write_settings :: ev2) with ((tr ++ [EvQueue write_settings]) ++ ev2)
          by now rewrite <- app_assoc.
        destruct v; [exact E| |exact E]. destruct E as (-> & HP' & -> & -> & Hi).
        split; [exact HP'|]. cbn [c_state c0]. split; [exact Hi|]. right. rewrite app_nil_r.
        unfold c0. cbn [c_wbuf]. split; [now rewrite Hw|].
        split; [now rewrite delivered_app, Hd|]. now rewrite acts_app, Ha.
      + rewrite received_app, Hr, Er. cbn [received flat_map concat Datatypes.app]. now rewrite !app_nil_r.
      + now rewrite acts_app, Ha.
    - unfold P in HP. rewrite Es in HP. destruct HP as (os & fs & e1 & Hr & Ha & Hrun).
      apply (try_read_run c tr w v c' ev w' os fs e1) in E; auto.
      destruct v; [exact E| |exact E]. destruct E as (-> & HP' & -> & -> & Hi).
      split; [exact HP'|]. rewrite Es. split; auto.
    - unfold P in HP. now rewrite Es in HP.
    - unfold P in HP. rewrite Es in HP. cbn [Q]. apply (dead_dispatch StProtocolError); auto.
      destruct HP as [[_ HP]|HP]; auto.
    - unfold P in HP. rewrite Es in HP. cbn [Q]. rewrite <- (app_nil_r tr). rewrite <- app_assoc.
      apply (dead_dispatch ClientClosed); auto. destruct HP as [[_ HP]|HP]; auto.
  Qed.

  Lemma P_others' c tr w w' : P c tr w -> others w w' -> P c tr w'.
  Proof.
    unfold P. intros HP Ho. destruct (c_state c); auto.
    - decompose [and] HP. repeat (split; auto). eapply ran_others; eauto.
    - decompose [and] HP. repeat (split; auto). eapply ran_others; eauto.
    - destruct HP as (os & fs & ev & H1 & H2 & H3). exists os, fs, ev. repeat (split; auto). eapply ran_others; eauto.
  Qed.

  Lemma session_run A r c tr w : session A r c tr w ->
    match r with None => P c tr w | Some r => Q r c tr w end.
  Proof.
    intros H. apply session_any in H.
    eapply (session_rule_buffered W app cs T others t0 w0 any any P Q) in H; [exact (proj1 H)|..].
    - unfold P. cbn. repeat (split; auto). constructor.
    - apply P_others'.
    - intros [] c1 tr1 w1 w2 HQ Ho; cbn [Q] in *; auto; destruct HQ; split; eauto using P_others'.
    - intros now c1 tr1 w1 HP Es. unfold P in *. rewrite Es in HP. cbn. destruct HP as (H1 & H2 & H3 & H4 & H5 & H6).
      rewrite received_app, delivered_app, acts_app, H1, H2, H4, H5. cbn. auto.
    - intros c1 tr1 w1 HP Es. cbn [Q]. rewrite Es. auto.
    - intros e c1 tr1 w1 HP Es _. cbn [Q]. left. unfold P in HP. rewrite Es in HP.
      destruct HP as (H1 & H2 & H3 & H4 & H5 & H6).
      rewrite received_app, delivered_app, acts_app, H1, H4, H5. repeat split.
      intros Hf. apply fault_free_app in Hf as [_ Hf]. inversion Hf; subst. easy.
    - intros. eapply flush_P; eauto.
    - intros. cbn [Q]. auto.
    - intros now o c1 tr1 w1 HP _ Hw Hs _ _ _ _. eapply P_transport; eauto; cbn [c_rbuf c_wbuf c_state c_dec c_enc]; auto.
      cbn. now rewrite app_nil_r.
    - intros now e c1 tr1 w1 HP _ Hw Hs _.
      destruct e; try (eapply P_transport; eauto; cbn [c_rbuf c_wbuf c_state c_dec c_enc]; auto; cbn; now rewrite app_nil_r).
      + unfold P. cbn [set_state c_state c_wbuf]. eapply fault_dead; eauto. intros Hf. inversion Hf; subst. easy.
      + unfold P. cbn [set_state c_state c_wbuf]. eapply fault_dead; eauto. intros Hf. inversion Hf; subst. easy.
    - intros c1 tr1 w1 c2 ev w2 HP HB Hw Hs E. apply (dispatch_run _ _ _ _ _ _ _ HP HB Hw Hs) in E. exact E.
    - intros c1 tr1 w1 r1 c2 ev w2 HP HB Hw Hs E. apply (dispatch_run _ _ _ _ _ _ _ HP HB Hw Hs) in E. exact E.
    - intros c1 tr1 w1 c2 ev w2 HP HB Hw Hs E. apply (dispatch_run _ _ _ _ _ _ _ HP HB Hw Hs) in E. exact E.
    - intros [] c1 tr1 w1 HQ Hr; cbn [Q] in HQ; [apply HQ|apply HQ|easy].
  Qed.
End Run.
