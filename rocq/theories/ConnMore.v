(** Further facts about sessions: frames and errors after which nothing happens, failing
    handlers, undefined behaviour. *)
From Verif Require Import Base BaseLemmas SpecFrames SpecHpack SpecHpackEnc Huffman DynTable HpackDec HpackDecProofs HpackEnc
  Frames FramesProofs Http Conn SpecConn ConnLemmas ConnRule ConnBasic ConnTerm ConnRun ConnSpec ConnMain ConnDet.

(** ** Two readings of one stream *)
Lemma frames_prefix ins o rest ins0 o0 rest0 :
  all_bytes (o ++ rest) ->
  frames_octets ins o -> Forall (fun f => lenZ (w_payload f) <= 16384) ins ->
  frames_octets ins0 o0 -> Forall (fun f => lenZ (w_payload f) <= 16384) ins0 ->
  o ++ rest = o0 ++ rest0 ->
  (exists more om, ins0 = ins ++ more /\ frames_octets more om /\ rest = om ++ rest0 /\
     Forall (fun f => lenZ (w_payload f) <= 16384) more) \/
  (exists f more fo r, ins = ins0 ++ f :: more /\ frame_octets f fo /\ rest0 = fo ++ r /\ lenZ (w_payload f) <= 16384).
Proof.
  intros Hb H Hs H0 Hs0 E. pose proof Hb as Hb0. rewrite E in Hb0.
  apply all_bytes_app in Hb as [Hb _]. apply all_bytes_app in Hb0 as [Hb0 _].
  destruct (frames_chunks _ _ H Hb Hs) as (os & fs & Hc & -> & <-).
  destruct (frames_chunks _ _ H0 Hb0 Hs0) as (os0 & fs0 & Hc0 & -> & <-).
  destruct (chunks_prefix _ _ _ _ _ _ Hc Hc0 E)
    as [(os2 & fs2 & -> & -> & Hc2 & ->)|(o2 & os2 & f2 & fs2 & -> & -> & Hc2 & ->)].
  - left. exists (map wf fs2), (concat os2). rewrite map_app. rewrite map_app in Hs0. apply Forall_app in Hs0 as [_ Hs2].
    repeat split; auto. now apply chunks_frames.
  - right. exists (wf f2), (map wf fs2), o2, (concat os2 ++ rest). rewrite map_app. cbn [map].
    repeat split; auto; [now apply chunk_frame_octets|eapply chunk_small; eauto].
Qed.

Lemma frame_chunk_bytes f o r : frame_octets f o -> lenZ (w_payload f) <= 16384 -> all_bytes (o ++ r) ->
  exists F, chunk o F /\ wf F = f.
Proof. intros H Hl Hb. apply all_bytes_app in Hb as [Hb _]. now apply frame_octets_chunk. Qed.

Lemma not_partial f o r : frame_octets f o -> ~ partial_frame (o ++ r).
Proof. intros H [Hp _]. now apply (Hp f o r H). Qed.

(** ** Frames that are never answered *)
Lemma answered_split ins txs outs : answered ins txs outs -> forall a b, ins = a ++ b ->
  exists txs1 outs1 txs2 outs2, txs = txs1 ++ txs2 /\ outs = outs1 ++ outs2 /\ answered a txs1 outs1.
Proof.
  intros H. assert (SELF : forall ins txs outs, answered ins txs outs -> forall a, ins = a ++ [] ->
    exists txs1 outs1 txs2 outs2, txs = txs1 ++ txs2 /\ outs = outs1 ++ outs2 /\ answered a txs1 outs1).
  { clear. intros ins txs outs H a ->. rewrite app_nil_r in H. exists txs, outs, [], []. now rewrite !app_nil_r. }
  induction H as [|ins txs outs fl st p H IH Hf Hm|ins txs outs fl st p H IH Hf
                  |ins txs outs fl st p tx fs H IH Hh Hv Hr|ins txs outs f H IH H1 H4 H7]; intros a b E.
  - destruct a, b; try discriminate. exists [], [], [], []. repeat split. constructor.
  - destruct b as [|x b] using rev_ind; [eapply SELF; [|exact E]; now apply answered_settings|].
    rewrite app_assoc in E. apply app_inj_tail in E as [-> _].
    destruct (IH a b eq_refl) as (t1 & o1 & t2 & o2 & -> & -> & Ha). exists t1, o1, t2, (o2 ++ [WFrame 4 1 0 []]).
    now rewrite <- app_assoc.
  - destruct b as [|x b] using rev_ind; [eapply SELF; [|exact E]; now apply answered_settings_ack|].
    rewrite app_assoc in E. apply app_inj_tail in E as [-> _].
    destruct (IH a b eq_refl) as (t1 & o1 & t2 & o2 & -> & -> & Ha). exists t1, o1, t2, o2. auto.
  - destruct b as [|x b] using rev_ind; [eapply SELF; [|exact E]; now apply answered_headers|].
    rewrite app_assoc in E. apply app_inj_tail in E as [-> _].
    destruct (IH a b eq_refl) as (t1 & o1 & t2 & o2 & -> & -> & Ha). exists t1, o1, (t2 ++ [tx]), (o2 ++ fs).
    now rewrite <- !app_assoc.
  - destruct b as [|x b] using rev_ind; [eapply SELF; [|exact E]; now apply answered_other|].
    rewrite app_assoc in E. apply app_inj_tail in E as [-> _].
    destruct (IH a b eq_refl) as (t1 & o1 & t2 & o2 & -> & -> & Ha). exists t1, o1, t2, o2. auto.
Qed.

Lemma headers_payload_fun prio b b' p : headers_payload false prio b p -> headers_payload false prio b' p -> b = b'.
Proof.
  intros (x & y & -> & Hx & _ & Hy) (x' & y' & E & Hx' & _ & Hy').
  rewrite Hy, Hy', !app_nil_r in E by auto. cbn [Datatypes.app] in E.
  destruct (app_inj_len x x' b b') as [_ ->]; auto. unfold lenZ in *. lia.
Qed.

Lemma blocks_prefix p st bs1 bs2 hss st' : rfc_blocks p st (bs1 ++ bs2) hss st' ->
  exists hss1 st1, rfc_blocks p st bs1 hss1 st1.
Proof.
  revert st hss. induction bs1 as [|b bs1 IH]; intros st hss H; [exists [], st; constructor|].
  inversion H; subst. destruct (IH _ _ ltac:(eassumption)) as (h1 & s1 & H1). eexists _, _. econstructor; eauto.
Qed.

Lemma refused_not_answered ins f more txs outs st :
  (forall txs outs, answered ins txs outs -> refused txs f) ->
  answered (ins ++ f :: more) txs outs ->
  rfc_blocks server_profile ([], 65536) (map tx_block txs) (map tx_fields txs) st -> False.
Proof.
  intros Hr Ha Hd.
  destruct (answered_split _ _ _ Ha (ins ++ [f]) more) as (t1 & o1 & t2 & o2 & -> & -> & H1).
  { now rewrite <- app_assoc. }
  rewrite !map_app in Hd. apply blocks_prefix in Hd as (h1 & s1 & Hd). clear Ha.
  remember (ins ++ [f]) as l eqn:El.
  destruct H1 as [|ins' txs outs fl st' p H Hf Hm|ins' txs outs fl st' p H Hf
                  |ins' txs outs fl st' p tx fs H Hh Hv Hrs|ins' txs outs f' H H1 H4 H7].
  - destruct ins; discriminate.
  - apply app_inj_tail in El as [-> <-]. destruct (Hr _ _ H) as [_ _ ?| |]; try discriminate. easy.
  - apply app_inj_tail in El as [-> <-]. destruct (Hr _ _ H) as [_ E _| |]; try discriminate. cbn [w_flags] in E. congruence.
  - apply app_inj_tail in El as [-> <-]. destruct (Hr _ _ H) as [? _ _| |block _ Hb Hn]; try discriminate.
    cbn [w_flags w_payload] in Hb. pose proof (headers_payload_fun _ _ _ _ Hh Hb) as EB.
    rewrite map_app in Hd. cbn [map] in Hd. rewrite EB in Hd. eapply Hn; eauto.
  - apply app_inj_tail in El as [-> <-]. destruct (Hr _ _ H) as [? _ _|?|block ? _ _]; contradiction.
Qed.

(** Nothing but possibly a GOAWAY frame was produced. *)
Lemma before_silent r tr : before_preface r tr ->
  silent r tr.
Proof.
  intros (Hd & Ha & _). split; [auto|]. rewrite <- requests_acts, <- logged_acts, <- queued_acts.
  destruct Ha as [->|(Hr & -> & _)]; [auto|]. split; [auto|]. split; [auto|]. right. split; auto.
  destruct bye_frame as (p & Hp). exists (WFrame 7 0 0 p). split; [now split|].
  cbn [queued flat_map bye]. now rewrite app_nil_r.
Qed.

Section More.
  Variable W : Type.
  Variable app : request -> W -> W * app_answer.
  Variable cs : bool.
  Variable T : tree.
  Variable others : W -> W -> Prop.
  Variable t0 : Z.
  Variable w0 : W.
  Hypothesis HT : is_tree T.
  Hypothesis Happ : answers_ok cs app.
  Notation session := (session W app cs T others t0 w0).
  Notation conversation := (conversation others app w0).

  (** C29 *)
  Lemma session_conversation A r c tr w : session A r c tr w ->
    silent r tr \/
    (exists ins txs outs byes escaped rest,
      conversation tr ins txs outs byes escaped rest /\
      (byes = [] \/ exists g, byes = [g] /\ goaway_frame g) /\
      (escaped = [] \/ exists rq, escaped = [(rq, None)]) /\
      (r <> Some DiscardConnection -> byes = [] /\ escaped = []) /\
      (r = Some WantRead -> partial_frame rest) /\
      (r = Some DiscardConnection -> fault_free tr -> ended_by txs byes escaped rest)).
  Proof.
    intros H. pose proof (received_bytes _ _ _ _ _ _ _ _ _ _ _ _ H) as Hb. apply session_story in H as [H|H].
    - left. now apply before_silent.
    - right. destruct (after_conversation W app cs T others w0 HT Happ r tr Hb H)
        as (ins & txs & outs & byes & esc & rest & H1 & H2 & H3 & H4 & H5 & _ & H6).
      exists ins, txs, outs, byes, esc, rest. auto 10.
  Qed.

  (** C28 *)
  Lemma preface_first A r c tr w : session A r c tr w ->
    delivered tr <> [] \/ requests tr <> [] \/ logged tr <> [] -> exists x, received tr = rfc_preface ++ x.
  Proof.
    intros H Hne. apply session_story in H as [H|H].
    - apply before_silent in H as (H1 & H2 & H3 & _). tauto.
    - destruct H as (os & fs & d & e & w1 & ev & rest & last & Hr & _). rewrite <- preface_eq. eauto.
  Qed.
  Lemma wrong_preface A r c tr w : session A r c tr w -> 24 <= lenZ (received tr) ->
    firstn 24 (received tr) <> rfc_preface ->
    r = Some DiscardConnection /\ delivered tr = [] /\ requests tr = [] /\ logged tr = [].
  Proof.
    intros H H24 Hne. rewrite <- preface_eq in Hne. apply session_story in H as [H|H].
    - pose proof (before_silent _ _ H) as (H1 & H2 & H3 & _). destruct H as (_ & _ & Hn & Hw & Hww & _).
      destruct r as [[]|]; try congruence; auto.
      + specialize (Hw eq_refl). lia.
      + rewrite (Hn eq_refl) in H24. now cbn in H24.
    - destruct H as (os & fs & d & e & w1 & ev & rest & last & Hr & _). rewrite Hr in Hne.
      exfalso. apply Hne. now rewrite firstn_exact.
  Qed.

  (** What follows the frames [ins] is never handled: the frames handled are among
      [ins]. *)
  Lemma stopped A r c tr w ins o x : session A r c tr w ->
    received tr = rfc_preface ++ o ++ x -> frames_octets ins o -> Forall (fun f => lenZ (w_payload f) <= 16384) ins ->
    (forall f fo r more txs outs st, all_bytes x -> frame_octets f fo -> x = fo ++ r -> lenZ (w_payload f) <= 16384 ->
       answered (ins ++ f :: more) txs outs ->
       rfc_blocks server_profile ([], 65536) (map tx_block txs) (map tx_fields txs) st -> False) ->
    ~ partial_frame x ->
    r <> Some WantRead /\
    (silent r tr \/
     (exists ins1 more txs outs byes escaped rest, ins = ins1 ++ more /\
       conversation tr ins1 txs outs byes escaped rest)).
  Proof.
    intros H Hr Ho Hs Hno Hp. pose proof (received_bytes _ _ _ _ _ _ _ _ _ _ _ _ H) as Hb.
    apply session_story in H as [H|H].
    - split; [|left; now apply before_silent]. intros ->. destruct H as (_ & _ & _ & H & _). specialize (H eq_refl).
      rewrite Hr, lenZ_app in H. change (lenZ rfc_preface) with 24 in H. pose proof (lenZ_nonneg (o ++ x)). lia.
    - destruct (after_conversation W app cs T others w0 HT Happ r tr Hb H)
        as (ins1 & txs & outs & byes & esc & rest & Hc & _ & _ & _ & H5 & _).
      pose proof Hc as [(o1 & Ho1 & Hr1) Hs1 Ha1 _ _ _ (st & Hd1) _ _].
      rewrite Hr1 in Hr. apply app_inv_head in Hr.
      rewrite Hr1 in Hb. apply all_bytes_app in Hb as [_ Hb].
      destruct (frames_prefix _ _ _ _ _ _ Hb Ho1 Hs1 Ho Hs Hr)
        as [(more & om & -> & Hm & -> & Hsm)|(f & more & fo & r' & -> & Hf & -> & Hl)].
      + split; [|right; exists ins1, more, txs, outs, byes, esc, (om ++ x); auto].
        intros E. specialize (H5 E). destruct Hm as (os & Hm & ->). destruct Hm as [|f fo more os Hf _].
        * now apply Hp in H5.
        * cbn [concat] in H5. rewrite <- app_assoc in H5. now apply (not_partial f) in H5.
      + exfalso. rewrite Hr in Hb. apply all_bytes_app in Hb as [_ Hb]. eapply Hno; eauto.
  Qed.

  (** C39 *)
  Lemma oversized_stops A r c tr w ins o x len : session A r c tr w ->
    received tr = rfc_preface ++ o ++ x -> frames_octets ins o -> Forall (fun f => lenZ (w_payload f) <= 16384) ins ->
    announces x len -> 16384 < len ->
    r <> Some WantRead /\
    (silent r tr \/
     (exists ins1 more txs outs byes escaped rest, ins = ins1 ++ more /\
       conversation tr ins1 txs outs byes escaped rest)).
  Proof.
    intros H Hr Ho Hs Han Hl. apply (stopped A r c tr w ins o x H Hr Ho Hs).
    - intros f fo r' more txs outs st _ (h & -> & Hh) -> Hsm _ _.
      destruct Han as (h' & typ & fl & st' & r0 & E & Hh').
      pose proof (header_len9 _ _ _ _ _ Hh) as L9. pose proof (header_len9 _ _ _ _ _ Hh') as L9'.
      rewrite <- app_assoc in E. apply app_inj_len in E as [-> _]; [|unfold lenZ; congruence].
      pose proof (fh_parse_spec _ _ _ _ _ Hh) as E1. rewrite (fh_parse_spec _ _ _ _ _ Hh') in E1.
      injection E1 as E1 _ _ _. lia.
    - intros [_ Hp]. specialize (Hp len Han). lia.
  Qed.

  (** C45 *)
  Lemma refused_stops A r c tr w ins o f fo x : session A r c tr w ->
    received tr = rfc_preface ++ o ++ fo ++ x -> frames_octets ins o ->
    Forall (fun f => lenZ (w_payload f) <= 16384) (ins ++ [f]) -> frame_octets f fo ->
    (forall txs outs, answered ins txs outs -> refused txs f) ->
    r <> Some WantRead /\
    (silent r tr \/
     (exists ins1 more txs outs byes escaped rest, ins = ins1 ++ more /\
       conversation tr ins1 txs outs byes escaped rest)).
  Proof.
    intros H Hr Ho Hs Hf Hrf. apply Forall_app in Hs as [Hs Hf']. apply Forall_inv in Hf'.
    apply (stopped A r c tr w ins o (fo ++ x) H Hr Ho Hs).
    - intros f' fo' r' more txs outs st Hb Hf2 E Hsm Ha Hd.
      destruct (frame_chunk_bytes f fo x Hf Hf' Hb) as (F & HF & EF). rewrite E in Hb.
      destruct (frame_chunk_bytes f' fo' r' Hf2 Hsm Hb) as (F' & HF2 & EF').
      destruct (chunk_inj _ _ _ _ _ _ HF HF2 E) as (_ & -> & _). rewrite <- EF', EF in Ha.
      eapply refused_not_answered; eauto.
    - now apply (not_partial f).
  Qed.

  Definition over (D : Prop) (tr : trace) : Prop :=
    forall a e b, tr = a ++ e :: b -> fatal_read e = true -> D /\ acts b = [].

  Lemma split_mid (tr ev a b : trace) e : tr ++ ev = a ++ e :: b ->
    (exists l, tr = a ++ e :: l /\ b = l ++ ev) \/ (exists l, ev = l ++ e :: b).
  Proof.
    intros E. apply app_eq_app in E as (l & [[-> E]|[-> E]]); [|right; eauto].
    destruct l as [|x l]; [right; exists []; auto|]. injection E as <- ->. left. eauto.
  Qed.
  Lemma over_ext (D D' : Prop) tr ev : over D tr -> acts ev = [] -> (D -> D') ->
    (forall a e b, ev = a ++ e :: b -> fatal_read e = true -> D') -> over D' (tr ++ ev).
  Proof.
    intros H Ha HD He a e b E Hf. apply split_mid in E as [(l & -> & ->)|(l & ->)].
    - destruct (H a e l eq_refl Hf) as [Hd Hl]. split; [auto|]. now rewrite acts_app, Hl, Ha.
    - split; [eauto|]. rewrite acts_app in Ha. apply app_eq_nil in Ha as [_ Ha].
      change (e :: b) with ([e] ++ b) in Ha. rewrite acts_app in Ha. now apply app_eq_nil in Ha as [_ Ha].
  Qed.
  Lemma over_ext1 (D D' : Prop) tr e : over D tr -> is_act e = false -> (D -> D') ->
    (fatal_read e = true -> D') -> over D' (tr ++ [e]).
  Proof.
    intros H Ha HD He. eapply over_ext; eauto.
    - unfold acts. cbn [filter]. now rewrite Ha.
    - intros a e' b E. destruct a as [|? [|]]; [injection E as <- <-; auto|discriminate|discriminate].
  Qed.
  Lemma qos_fatal ev a e b : quiet_or_shutdown ev -> ev = a ++ e :: b -> fatal_read e = true -> False.
  Proof.
    intros [H| ->] E Hf.
    - subst ev. apply Forall_app in H as [_ H]. apply Forall_inv in H. now destruct e.
    - destruct a as [|? [|]]; [injection E as <- <-; easy|discriminate|discriminate].
  Qed.

  Lemma go_not_closing c w c' ev w' : all_bytes (c_rbuf c) -> c_state c <> Closing -> c_state c <> AwaitingHandshake ->
    dispatch W app cs T c w = Ret (Continue, c', ev, w') -> c_state c' <> Closing.
  Proof.
    assert (TR : forall c c' ev, all_bytes (c_rbuf c) -> c_state c <> Closing ->
              try_read_frame W app cs T c w = Ret (Continue, c', ev, w') -> c_state c' <> Closing).
    { clear. intros c c' ev Hb Hs E. apply try_read_frame_inv in E; auto.
      destruct E as [(? & _)|[(_ & -> & _)|(o & r & f & fe & d & e & _ & _ & Ep & Hfe)]]; [discriminate|easy|].
      destruct fe as [|s|]; destruct Hfe as [Hv ->]; [exact Hs| |discriminate].
      cbn [c_state]. intros ->. apply process_frame_inv in Ep. decompose [or and ex] Ep; congruence. }
    intros Hb Hs Hh E. apply dispatch_inv in E; auto.
    destruct E as [(_ & _ & ? & _)|[(_ & _ & _ & ? & _)|[(rest & ev2 & _ & Er & _ & E)|
      [(_ & E)|[(_ & ? & _)|[(_ & ? & _)|(_ & ? & _)]]]]]]; try discriminate.
    - rewrite Er in Hb. apply all_bytes_app in Hb as [_ Hb]. eapply TR; [| |exact E]; easy.
    - eapply TR; [| |exact E]; auto.
  Qed.

  Definition Pf (c : conn) (tr : trace) (_ : W) : Prop :=
    c_state c <> Closing /\ over (dead (c_state c) = true /\ c_wbuf c = []) tr.
  Definition Qf (r : result) (c : conn) (tr : trace) (w : W) : Prop :=
    match r with
    | DiscardConnection => forall a e b, tr = a ++ e :: b -> fatal_read e = true -> acts b = [] \/ acts b = [bye]
    | _ => Pf c tr w /\ over False tr
    end.

  Lemma fatal_stops A r c tr w a e b : session A r c tr w -> tr = a ++ e :: b -> fatal_read e = true ->
    r = Some DiscardConnection /\ (acts b = [] \/ acts b = [bye]).
  Proof.
    intros H. apply session_any in H. pose proof H as H'.
    eapply (session_rule_buffered W app cs T others t0 w0 any any Pf Qf) in H.
    - destruct H as [H _]. intros E Hf. destruct r as [[]|].
      + destruct H as [_ H]. now destruct (H a e b E Hf).
      + destruct H as [_ H]. now destruct (H a e b E Hf).
      + split; [auto|]. eapply H; eauto.
      + destruct H as [_ H]. destruct (H a e b E Hf) as [[H1 _] _].
        assert (X : c_state c = AwaitingHandshake \/ tr = []).
        { clear -H'. remember None as r. induction H'; try discriminate; auto. }
        destruct X as [X|X]; [rewrite X in H1; discriminate|]. rewrite X in E. now destruct a.
    - split; [easy|]. intros a1 e1 b1 E. now destruct a1.
    - auto.
    - intros [] c1 tr1 w1 w2 HQ _; exact HQ.
    - intros now c1 tr1 w1 [H1 H2] Es. split; [easy|]. eapply over_ext1; eauto; [|easy].
      rewrite Es. now intros [? _].
    - intros c1 tr1 w1 [H1 H2] Es. split; [now split|]. intros a1 e1 b1 E Hf.
      destruct (H2 a1 e1 b1 E Hf) as [[? _] _]. rewrite Es in *. discriminate.
    - intros e1 c1 tr1 w1 [H1 H2] Es _. intros a1 e2 b1 E Hf. left.
      apply split_mid in E as [(l & -> & ->)|(l & E)].
      + destruct (H2 a1 e2 l eq_refl Hf) as [[? _] _]. rewrite Es in *. discriminate.
      + destruct l as [|? [|]]; [injection E as <- <-; easy|discriminate|discriminate].
    - intros wr c1 tr1 w1 c2 ev wr' [H1 H2] _ _ Hs E. unfold flush_write_buffer in E.
      destruct (c_wbuf c1) as [|x xs] eqn:Ew; [injection E as <- <- _; rewrite app_nil_r; split; [auto|now rewrite Ew]|].
      assert (HN : over False tr1).
      { intros a1 e1 b1 E1 Hf. destruct (H2 a1 e1 b1 E1 Hf) as [[_ ?] _]. discriminate. }
      destruct wr as [|[now [n|k|e1]] wr]; injection E as <- <- _; (split; [try destruct e1; cbn; easy|]);
        (eapply over_ext1; [exact HN|reflexivity|easy|easy]).
    - intros c1 tr1 w1 [H1 H2] _ Hw. split; [now split|]. intros a1 e1 b1 E Hf.
      destruct (H2 a1 e1 b1 E Hf) as [[_ ?] _]. contradiction.
    - intros now o c1 tr1 w1 [H1 H2] _ Hw Hs _ _ _ _. split; [easy|]. eapply over_ext1; eauto; easy.
    - intros now e1 c1 tr1 w1 [H1 H2] _ Hw Hs _. split; [now destruct e1|].
      eapply over_ext1; eauto.
      + intros [? ?]. destruct e1; auto.
      + destruct e1; cbn; easy.
    - intros c1 tr1 w1 c2 ev w2 [H1 H2] HB Hw Hs E.
      assert (HN : over False (tr1 ++ ev)).
      { pose proof E as E'. apply dispatch_measure in E' as [Hd _]; auto.
        intros a1 e1 b1 E1 Hf. exfalso. apply split_mid in E1 as [(l & -> & ->)|(l & E1)].
        - destruct (H2 a1 e1 l eq_refl Hf) as [[? _] _]. congruence.
        - apply dispatch_quiet in E as (Hq & _); auto; [|apply HB]. eapply qos_fatal; eauto. }
      split; [|intros a1 e1 b1 E1 Hf; now destruct (HN a1 e1 b1 E1 Hf)].
      apply go_not_closing in E; auto. apply HB.
    - intros c1 tr1 w1 r1 c2 ev w2 [H1 H2] HB Hw Hs E.
      assert (Hq : quiet_or_shutdown ev) by (apply dispatch_quiet in E as (Hq & _); auto; apply HB).
      destruct (dead (c_state c1)) eqn:Ed.
      + apply dispatch_inv in E; auto; [|apply HB].
        destruct E as [(Es & _)|[(Es & _)|[(rest & ev2 & Es & _)|
          [(Es & _)|[(Es & _)|[(Es & [= ->] & -> & -> & _)|(Es & [= ->] & -> & -> & _)]]]]]];
          try (rewrite Es in Ed; discriminate Ed); [contradiction| |];
          intros a1 e1 b1 E1 Hf; apply split_mid in E1 as [(l & -> & ->)|(l & E1)].
        * destruct (H2 a1 e1 l eq_refl Hf) as [_ Hl]. right. now rewrite acts_app, Hl.
        * exfalso. eapply qos_fatal; eauto.
        * destruct (H2 a1 e1 l eq_refl Hf) as [_ Hl]. left. now rewrite acts_app, Hl.
        * exfalso. eapply qos_fatal; eauto.
      + assert (HN : over False (tr1 ++ ev)).
        { intros a1 e1 b1 E1 Hf. exfalso. apply split_mid in E1 as [(l & -> & ->)|(l & E1)].
          - destruct (H2 a1 e1 l eq_refl Hf) as [[? _] _]. congruence.
          - eapply qos_fatal; eauto. }
        assert (HD : c_state c2 <> Closing -> Pf c2 (tr1 ++ ev) w2).
        { split; auto. intros a1 e1 b1 E1 Hf. now destruct (HN a1 e1 b1 E1 Hf). }
        destruct r1; [split; [|exact HN]|split; [|exact HN]|].
        * apply HD. apply dispatch_inv in E; auto; [|apply HB].
          destruct E as [(Es & _ & _ & -> & _)|[(Es & _ & _ & _ & -> & _)|[(rest & ev2 & Es & Er & _ & E)|
            [(Es & E)|[(Es & _)|[(Es & _)|(Es & _)]]]]]]; try (rewrite Es in Ed; discriminate Ed); auto.
          -- destruct HB as [Hb _]. rewrite Er in Hb. apply all_bytes_app in Hb as [_ Hb].
             apply try_read_frame_inv in E; auto.
             destruct E as [(_ & -> & _)|[(? & _)|(o & r2 & f & fe & d & e1 & _ & _ & Hp & Hfe)]];
               [easy|discriminate|destruct fe; destruct Hfe; discriminate].
          -- apply try_read_frame_inv in E; [|apply HB].
             destruct E as [(_ & -> & _)|[(? & _)|(o & r2 & f & fe & d & e1 & _ & _ & Hp & Hfe)]];
               [easy|discriminate|destruct fe; destruct Hfe; discriminate].
        * apply HD. apply dispatch_inv in E; auto; [|apply HB].
          destruct E as [(Es & _ & _ & -> & _)|[(Es & _ & _ & _ & -> & _)|[(rest & ev2 & Es & Er & _ & E)|
            [(Es & E)|[(Es & _)|[(Es & _)|(Es & _)]]]]]]; try (rewrite Es in Ed; discriminate Ed); auto.
          -- destruct HB as [Hb _]. rewrite Er in Hb. apply all_bytes_app in Hb as [_ Hb].
             apply try_read_frame_inv in E; auto.
             destruct E as [(_ & -> & _)|[(? & _)|(o & r2 & f & fe & d & e1 & _ & _ & Hp & Hfe)]];
               [easy|discriminate|destruct fe; destruct Hfe; discriminate].
          -- apply try_read_frame_inv in E; [|apply HB].
             destruct E as [(_ & -> & _)|[(? & _)|(o & r2 & f & fe & d & e1 & _ & _ & Hp & Hfe)]];
               [easy|discriminate|destruct fe; destruct Hfe; discriminate].
        * intros a1 e1 b1 E1 Hf. now destruct (HN a1 e1 b1 E1 Hf).
    - intros c1 tr1 w1 c2 ev w2 [H1 H2] HB Hw Hs E a1 e1 b1 E1 Hf. exfalso.
      assert (Hq : quiet_or_shutdown ev) by (apply dispatch_quiet in E as (Hq & _); auto; apply HB).
      apply split_mid in E1 as [(l & -> & ->)|(l & E1)]; [|eapply qos_fatal; eauto].
      destruct (H2 a1 e1 l eq_refl Hf) as [[Hd _] _]. apply dispatch_inv in E; auto; [|apply HB].
      destruct E as [(Es & _)|[(Es & _)|[(rest & ev2 & Es & _)|
          [(Es & _)|[(_ & ? & _)|[(_ & ? & _)|(_ & ? & _)]]]]]]; try discriminate; rewrite Es in Hd; discriminate.
    - intros [] c1 tr1 w1 HQ Hn; [apply HQ|apply HQ|congruence].
  Qed.
End More.
