(** The outcome is determined by the octets received: segmentation, unknown frames,
    frames after which nothing happens. *)
From Verif Require Import Base BaseLemmas SpecFrames SpecHpack SpecHpackEnc Huffman DynTable HpackDec HpackDecProofs HpackEnc
  Frames FramesProofs Http Conn SpecConn ConnLemmas ConnRule ConnBasic ConnTerm ConnRun ConnSpec ConnMain.

Lemma preface_len x : lenZ (CLIENT_PREFACE ++ x) < 24 \/ firstn 24 (CLIENT_PREFACE ++ x) <> CLIENT_PREFACE -> False.
Proof.
  intros [H|H]; [rewrite lenZ_app in H; change (lenZ CLIENT_PREFACE) with 24 in H; pose proof (lenZ_nonneg x); lia|].
  apply H. now rewrite firstn_exact.
Qed.

Section Det.
  Variable W : Type.
  Variable app : request -> W -> W * app_answer.
  Variable cs : bool.
  Variable T : tree.
  Notation process_frame := (process_frame W app cs T).
  Notation table0 := (dt_init DEFAULT_MAX_TABLE_SIZE).
  Notation ends := (ends W app cs T).
  Notation thrown := (thrown W app cs T).

  (** Where processing of [x] stops, and the last visible events. *)
  Inductive fate (d e : dyn_table) (w : W) (x : bytes) : trace -> Prop :=
  | fate_wait : incomplete x -> fate d e w x []
  | fate_oversized : oversized x -> fate d e w x [bye]
  | fate_state : forall o f r s d' e' w' ev, x = o ++ r -> chunk o f ->
      process_frame f d e w = Ret (FrameState s, d', e', w', ev) ->
      fate d e w x (match s with StProtocolError => [bye] | _ => [] end)
  | fate_throw : forall o f r d' e' w' last, x = o ++ r -> chunk o f ->
      process_frame f d e w = Ret (FrameThrows, d', e', w', last) -> fate d e w x last.

  Lemma incomplete_oversized x : incomplete x -> ~ oversized x.
  Proof.
    intros [H|(h & E & Hm & Hl)] (H9 & h' & E' & Hm'); [lia|]. rewrite E in E'. injection E' as <-. lia.
  Qed.

  Lemma fate_not_done d e w o f r l d' e' w' ev : chunk o f ->
    process_frame f d e w = Ret (FrameDone, d', e', w', ev) -> ~ fate d e w (o ++ r) l.
  Proof.
    intros Hc Hp [Hi|Ho|o1 f1 r1 s d1 e1 w1 ev1 E Hc1 Hp1|o1 f1 r1 d1 e1 w1 l1 E Hc1 Hp1].
    - eapply chunk_not_incomplete; eauto.
    - eapply chunk_not_oversized; eauto.
    - destruct (chunk_inj _ _ _ _ _ _ Hc Hc1 E) as (-> & -> & _). congruence.
    - destruct (chunk_inj _ _ _ _ _ _ Hc Hc1 E) as (-> & -> & _). congruence.
  Qed.

  (** Inside a complete frame only that frame matters. *)
  Lemma fate_change d e w o o' f r r' l : chunk o f -> chunk o' f -> fate d e w (o ++ r) l -> fate d e w (o' ++ r') l.
  Proof.
    intros Hc Hc' [Hi|Ho|o1 f1 r1 s d1 e1 w1 ev1 E Hc1 Hp1|o1 f1 r1 d1 e1 w1 l1 E Hc1 Hp1].
    - now apply (chunk_not_incomplete _ _ _ Hc) in Hi.
    - now apply (chunk_not_oversized _ _ _ Hc) in Ho.
    - destruct (chunk_inj _ _ _ _ _ _ Hc Hc1 E) as (-> & -> & _). eapply fate_state; eauto.
    - destruct (chunk_inj _ _ _ _ _ _ Hc Hc1 E) as (-> & -> & _). eapply fate_throw; eauto.
  Qed.

  Lemma fate_det d e w x l1 l2 : fate d e w x l1 -> fate d e w x l2 -> l1 = l2.
  Proof.
    intros [Hi|Ho|o f r s d1 e1 w1 ev1 -> Hc Hp|o f r d1 e1 w1 l -> Hc Hp] H2.
    - destruct H2 as [Hi2|Ho2|o f r s d1 e1 w1 ev1 -> Hc Hp|o f r d1 e1 w1 l -> Hc Hp]; auto.
      + now apply incomplete_oversized in Hi.
      + exfalso. eapply chunk_not_incomplete; eauto.
      + exfalso. eapply chunk_not_incomplete; eauto.
    - destruct H2 as [Hi2|Ho2|o f r s d1 e1 w1 ev1 -> Hc Hp|o f r d1 e1 w1 l -> Hc Hp]; auto.
      + now apply incomplete_oversized in Hi2.
      + exfalso. eapply chunk_not_oversized; eauto.
      + exfalso. eapply chunk_not_oversized; eauto.
    - destruct H2 as [Hi2|Ho2|o2 f2 r2 s2 d2 e2 w2 ev2 E Hc2 Hp2|o2 f2 r2 d2 e2 w2 l E Hc2 Hp2].
      + exfalso. eapply chunk_not_incomplete; eauto.
      + exfalso. eapply chunk_not_oversized; eauto.
      + destruct (chunk_inj _ _ _ _ _ _ Hc Hc2 E) as (-> & -> & _). rewrite Hp in Hp2.
        now injection Hp2 as -> _ _ _ _.
      + destruct (chunk_inj _ _ _ _ _ _ Hc Hc2 E) as (-> & -> & _). congruence.
    - destruct H2 as [Hi2|Ho2|o2 f2 r2 s2 d2 e2 w2 ev2 E Hc2 Hp2|o2 f2 r2 d2 e2 w2 l2 E Hc2 Hp2].
      + exfalso. eapply chunk_not_incomplete; eauto.
      + exfalso. eapply chunk_not_oversized; eauto.
      + destruct (chunk_inj _ _ _ _ _ _ Hc Hc2 E) as (-> & -> & _). congruence.
      + destruct (chunk_inj _ _ _ _ _ _ Hc Hc2 E) as (-> & -> & _). rewrite Hp in Hp2.
        now injection Hp2 as _ _ _ ->.
  Qed.

  (** All visible events that the octets [x] lead to. *)
  Inductive final : dyn_table -> dyn_table -> W -> bytes -> trace -> Prop :=
  | final_stop : forall d e w x l, fate d e w x l -> final d e w x l
  | final_step : forall d e w o f d' e' w' ev x l, chunk o f ->
      process_frame f d e w = Ret (FrameDone, d', e', w', ev) -> final d' e' w' x l ->
      final d e w (o ++ x) (ev ++ l).

  Lemma final_step_inv d e w o f d' e' w' ev x l : chunk o f ->
    process_frame f d e w = Ret (FrameDone, d', e', w', ev) -> final d e w (o ++ x) l ->
    exists l', l = ev ++ l' /\ final d' e' w' x l'.
  Proof.
    intros Hc Hp H. inversion H as [? ? ? ? ? Hf|? ? ? o1 f1 d1 e1 w1 ev1 x1 l1 Hc1 Hp1 H1]; subst.
    - exfalso. eapply fate_not_done; eauto.
    - match goal with E : _ ++ _ = _ ++ _ |- _ => destruct (chunk_inj _ _ _ _ _ _ Hc1 Hc E) as (-> & -> & ->) end.
      rewrite Hp in Hp1. injection Hp1 as <- <- <- <-. eauto.
  Qed.

  Lemma final_det d e w x l1 : final d e w x l1 -> forall l2, final d e w x l2 -> l1 = l2.
  Proof.
    induction 1 as [d e w x l Hf|d e w o f d' e' w' ev x l Hc Hp H IH]; intros l2 H2.
    - inversion H2 as [? ? ? ? ? Hf2|? ? ? o1 f1 d1 e1 w1 ev1 x1 l1 Hc1 Hp1 H1]; subst.
      + eapply fate_det; eauto.
      + exfalso. eapply fate_not_done; [| |exact Hf]; eauto.
    - destruct (final_step_inv _ _ _ _ _ _ _ _ _ _ _ Hc Hp H2) as (l' & -> & H'). f_equal. auto.
  Qed.

  (** Frames without effect can be left out. *)
  Definition ignorable (f : frame) : bool :=
    negb ((f_type f =? 1) || (f_type f =? 4) || (f_type f =? 7) || (f_type f =? 8)).

  Lemma ignorable_done f d e w : ignorable f = true -> process_frame f d e w = Ret (FrameDone, d, e, w, []).
  Proof.
    unfold ignorable, Conn.process_frame, FRAME_TYPE_SETTINGS, FRAME_TYPE_HEADERS, FRAME_TYPE_WINDOW_UPDATE, FRAME_TYPE_GOAWAY.
    intros H. apply negb_true_iff, orb_false_elim in H as [H ->]. apply orb_false_elim in H as [H ->].
    apply orb_false_elim in H as [-> ->]. reflexivity.
  Qed.

  Lemma final_filter os fs : Forall2 chunk os fs -> forall os' d e w rest l,
    Forall2 chunk os' (filter (fun f => negb (ignorable f)) fs) ->
    final d e w (concat os ++ rest) l -> final d e w (concat os' ++ rest) l.
  Proof.
    induction 1 as [|o f os fs Hc _ IH]; intros os' d e w rest l Ho H.
    { inversion Ho; subst. exact H. }
    cbn [concat filter] in *. rewrite <- app_assoc in H. destruct (ignorable f) eqn:Ei; cbn [negb] in Ho.
    - destruct (final_step_inv _ _ _ _ _ _ _ _ _ _ _ Hc (ignorable_done f d e w Ei) H) as (l' & -> & H'). auto.
    - inversion Ho as [|o' ? os2 ? Hc' Ho']; subst. cbn [concat]. rewrite <- app_assoc.
      inversion H as [? ? ? ? ? Hf|? ? ? o1 f1 d1 e1 w1 ev1 x1 l1 Hc1 Hp1 H1]; subst.
      + apply final_stop. eapply fate_change; [exact Hc|exact Hc'|exact Hf].
      + match goal with E : _ ++ _ = _ ++ _ |- _ => destruct (chunk_inj _ _ _ _ _ _ Hc1 Hc E) as (-> & -> & ->) end.
        eapply final_step; [exact Hc'|exact Hp1|]. now apply IH.
  Qed.

  Variable t0 : Z.
  Variable w0 : W.
  Notation ran := (ran W app cs T eq w0).
  Notation session := (session W app cs T eq t0 w0).

  Lemma ran_final os fs d e w ev : ran os fs d e w ev -> forall x l,
    final d e w x l -> final table0 table0 w0 (concat os ++ x) (ev ++ l).
  Proof.
    induction 1 as [|os fs d e w w' ev _ IH Ho|os fs d e w ev o f d' e' w' ev' _ IH Hc Hp]; intros x l H.
    - exact H.
    - subst w'. now apply IH.
    - rewrite concat_app. cbn [concat]. rewrite app_nil_r, <- !app_assoc. apply IH. eapply final_step; eauto.
  Qed.

  Lemma ends_fate d e w rest s y : ends d e w rest s ->
    fate d e w (rest ++ y) (match s with StProtocolError => [bye] | _ => [] end).
  Proof.
    intros H. apply (ends_more W app cs T eq w) with (o := y) in H. remember (rest ++ y) as x eqn:Ex. clear Ex.
    destruct H as [o f r s' d' e' w' ev' Hc Hp|r Ho]; [exact (fate_state _ _ _ _ o f r s' d' e' w' ev' eq_refl Hc Hp)|now apply fate_oversized].
  Qed.
  Lemma thrown_fate d e w rest l y : thrown d e w rest l -> fate d e w (rest ++ y) l.
  Proof.
    intros (o & f & r & d' & e' & w' & -> & Hc & Hp). rewrite <- app_assoc. exact (fate_throw _ _ _ _ o f (r ++ y) d' e' w' l eq_refl Hc Hp).
  Qed.

  (** The visible events of a session are a function of the octets. *)
  Definition outcome (x : bytes) (tr : trace) : Prop :=
    (acts tr = [] /\ (lenZ x < 24 \/ firstn 24 x <> CLIENT_PREFACE)) \/
    (exists x' l, x = CLIENT_PREFACE ++ x' /\ acts tr = EvQueue write_settings :: l /\ final table0 table0 w0 x' l).

  Lemma session_outcome A x r c tr w : session A r c tr w -> done_with x r tr -> outcome x tr.
  Proof.
    intros HS HD. apply session_story in HS as [HB|HA].
    - left. destruct HB as (_ & Ha & _ & H1 & _ & H2).
      destruct HD as [[-> <-]|(-> & Hff & y & ->)].
      + destruct Ha as [Ha|(? & _)]; [|discriminate]. auto.
      + destruct Ha as [Ha|(_ & _ & ?)]; [|easy]. destruct (H2 eq_refl Hff) as [H24 Hne]. split; auto.
        right. rewrite firstn_app_long; auto. unfold lenZ in H24. lia.
    - right. destruct HA as (os & fs & d & e & w1 & ev & rest & last & Hr & Hran & Ha & Hl & Hi & _ & Hf).
      destruct HD as [[-> <-]|(-> & Hff & y & ->)].
      + exists (concat os ++ rest), (ev ++ last). split; [auto|]. split; [auto|].
        destruct Hl as [->|(? & _)]; [|discriminate].
        apply (ran_final _ _ _ _ _ _ Hran). apply final_stop, fate_wait. auto.
      + exists (concat os ++ rest ++ y), (ev ++ last).
        split; [rewrite Hr, <- !app_assoc; reflexivity|]. split; [auto|].
        apply (ran_final _ _ _ _ _ _ Hran). apply final_stop.
        destruct (Hf eq_refl Hff) as [(s & He & ->)|Ht]; [now apply ends_fate|now apply thrown_fate].
  Qed.

  Lemma outcome_det x tr tr' : outcome x tr -> outcome x tr' -> acts tr = acts tr'.
  Proof.
    intros [(H1 & H2)|(x1 & l1 & -> & H1 & H2)] [(H3 & H4)|(x2 & l2 & E & H3 & H4)].
    - congruence.
    - subst x. now apply preface_len in H2.
    - now apply preface_len in H4.
    - apply app_inv_head in E. subst x2. rewrite H1, H3. f_equal. eapply final_det; eauto.
  Qed.
End Det.

(** C27 *)
Lemma segmentation W app cs T w0 A1 A2 t1 t2 x r1 c1 tr1 w1 r2 c2 tr2 w2 :
  session W app cs T eq t1 w0 A1 r1 c1 tr1 w1 -> session W app cs T eq t2 w0 A2 r2 c2 tr2 w2 ->
  done_with x r1 tr1 -> done_with x r2 tr2 ->
  visible tr1 = visible tr2.
Proof.
  intros H1 H2 D1 D2. apply session_outcome with (x := x) in H1; auto. apply session_outcome with (x := x) in H2; auto.
  eapply outcome_det; eauto.
Qed.

Lemma visible_same tr1 tr2 : visible tr1 = visible tr2 ->
  queued tr1 = queued tr2 /\ requests tr1 = requests tr2 /\ logged tr1 = logged tr2.
Proof.
  rewrite !visible_acts. intros E. rewrite <- (queued_acts tr1), <- (requests_acts tr1), <- (logged_acts tr1), E.
  now rewrite queued_acts, requests_acts, logged_acts.
Qed.

(** C41 *)
Lemma chunk_wf_inj o f o' f' : chunk o f -> chunk o' f' -> wf f = wf f' -> f = f'.
Proof.
  intros Hc Hc' E. pose proof (chunk_payload_len o f Hc) as L. pose proof (chunk_payload_len o' f' Hc') as L'.
  destruct f as [[l t fl st] p], f' as [[l' t' fl' st'] p'].
  unfold wf, f_type, f_flags, f_stream in E. cbn in *. injection E as -> -> -> ->. congruence.
Qed.

Lemma chunks_wf_inj os fs : Forall2 chunk os fs -> forall os' fs', Forall2 chunk os' fs' -> map wf fs = map wf fs' -> fs = fs'.
Proof.
  induction 1 as [|o f os fs Hc _ IH]; intros os' fs' H' E; inversion H'; subst; try easy.
  injection E as E1 E2 E3 E4 E5. f_equal; [eapply chunk_wf_inj; eauto; unfold wf; congruence|eauto].
Qed.

Lemma filter_wf fs : map wf (filter (fun f => negb (ignorable f)) fs) = filter implemented (map wf fs).
Proof.
  induction fs as [|f fs IH]; [easy|]. cbn [map filter].
  assert (E : negb (ignorable f) = implemented (wf f)) by (unfold ignorable, implemented; now rewrite negb_involutive).
  rewrite E. destruct (implemented (wf f)); cbn [map]; now rewrite IH.
Qed.

Lemma frames_bytes fs o : frames_octets fs o -> Forall (fun f => all_bytes (w_payload f)) fs -> all_bytes o.
Proof.
  intros (os & H & ->) Hb. revert Hb. induction H as [|f o fs os (h & -> & l & s & r & E & Hh & _) _ IH]; intros Hb;
    cbn [concat]; [constructor|].
  apply Forall_cons_iff in Hb as [H1 H2]. rewrite <- app_assoc. repeat (apply all_bytes_app; split; auto).
Qed.

Lemma final_unknown W app cs T w0 ins o o' rest l :
  Forall (fun f => all_bytes (w_payload f) /\ lenZ (w_payload f) <= 16384) ins ->
  frames_octets ins o -> frames_octets (filter implemented ins) o' ->
  final W app cs T (dt_init DEFAULT_MAX_TABLE_SIZE) (dt_init DEFAULT_MAX_TABLE_SIZE) w0 (o ++ rest) l ->
  final W app cs T (dt_init DEFAULT_MAX_TABLE_SIZE) (dt_init DEFAULT_MAX_TABLE_SIZE) w0 (o' ++ rest) l.
Proof.
  intros Hi Ho Ho' H.
  assert (Hb : Forall (fun f => all_bytes (w_payload f)) ins) by (eapply Forall_impl; [|exact Hi]; cbn; tauto).
  assert (Hs : Forall (fun f => lenZ (w_payload f) <= 16384) ins) by (eapply Forall_impl; [|exact Hi]; cbn; tauto).
  destruct (frames_chunks _ _ Ho (frames_bytes _ _ Ho Hb) Hs) as (os & fs & Hc & -> & E).
  assert (Hf : forall P, Forall P ins -> Forall P (filter implemented ins)).
  { intros P HP. rewrite Forall_forall in *. intros x Hx. apply filter_In in Hx as [Hx _]. auto. }
  destruct (frames_chunks _ _ Ho' (frames_bytes _ _ Ho' (Hf _ Hb)) (Hf _ Hs)) as (os' & fs' & Hc' & -> & E').
  eapply final_filter; [exact Hc| |exact H].
  assert (fs' = filter (fun f => negb (ignorable f)) fs) as <-; [|exact Hc'].
  assert (Hx : exists os2, Forall2 chunk os2 (filter (fun f => negb (ignorable f)) fs)).
  { clear -Hc. induction Hc as [|o f os fs Hc _ (os2 & IH)]; [exists []; constructor|].
    cbn [filter]. destruct (negb (ignorable f)); [exists (o :: os2); now constructor|eauto]. }
  destruct Hx as (os2 & Hx). eapply chunks_wf_inj; eauto. now rewrite filter_wf, E.
Qed.

Lemma unknown_frames W app cs T w0 A1 A2 t1 t2 ins o o' rest r1 c1 tr1 w1 r2 c2 tr2 w2 :
  Forall (fun f => all_bytes (w_payload f) /\ lenZ (w_payload f) <= 16384) ins ->
  frames_octets ins o -> frames_octets (filter implemented ins) o' ->
  session W app cs T eq t1 w0 A1 r1 c1 tr1 w1 -> session W app cs T eq t2 w0 A2 r2 c2 tr2 w2 ->
  done_with (rfc_preface ++ o ++ rest) r1 tr1 -> done_with (rfc_preface ++ o' ++ rest) r2 tr2 ->
  visible tr1 = visible tr2.
Proof.
  intros Hi Ho Ho' H1 H2 D1 D2. rewrite <- preface_eq in *.
  eapply session_outcome in H1; [|exact D1]. eapply session_outcome in H2; [|exact D2].
  destruct H1 as [(_ & H)|(x1 & l1 & E1 & V1 & F1)]; [now apply preface_len in H|].
  apply app_inv_head in E1. subst x1.
  apply (final_unknown _ _ _ _ _ _ _ _ _ _ Hi Ho Ho') in F1.
  eapply (outcome_det W app cs T w0); [|exact H2]. right. eauto.
Qed.
