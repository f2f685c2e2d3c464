(** Frames the server does not look into; DATA octets against windows. *)
From Verif Require Import Base BaseLemmas SpecFrames SpecHpack SpecHpackEnc Huffman DynTable HpackDec HpackDecProofs HpackEnc
  Frames FramesProofs Http Conn SpecConn SpecFlow ConnLemmas ConnRule ConnBasic ConnTerm ConnRun ConnSpec ConnMain ConnDet ConnLast.

Section Alike.
  Variable W : Type.
  Variable app : request -> W -> W * app_answer.
  Variable cs : bool.
  Variable T : tree.
  Notation process_frame := (process_frame W app cs T).
  Notation fate := (fate W app cs T).
  Notation final := (final W app cs T).

  Lemma chunk_bytes o f : chunk o f -> all_bytes (f_payload f).
  Proof. intros (_ & Hb & _ & -> & _). now apply all_bytes_skipn. Qed.

  Lemma alike_process o f o' f' d e w : chunk o f -> chunk o' f' -> alike (wf f) (wf f') -> process_frame f d e w = process_frame f' d e w.
  Proof.
    intros Hc Hc' H. assert (Hw : wf f = wf f' -> f = f') by (intros E; exact (chunk_wf_inj _ _ _ _ Hc Hc' E)).
    apply chunk_bytes in Hc. apply chunk_bytes in Hc'. remember (wf f) as g eqn:E. remember (wf f') as g' eqn:E'.
    destruct H as [g|fl fl' s block p p' H H'|fl fl' s s' p p' H H'|fl fl' s s' p p']; [rewrite (Hw eq_refl); reflexivity|..];
      injection E as E1 E2 E3 E4; injection E' as E1' E2' E3' E4';
      unfold Conn.process_frame, FRAME_TYPE_SETTINGS, FRAME_TYPE_HEADERS, FRAME_TYPE_WINDOW_UPDATE, FRAME_TYPE_GOAWAY;
      rewrite <- E1, <- E1'; cbn [Z.eqb Pos.eqb].
    - subst. rewrite <- (has_flag_bit f 5) in H by lia. rewrite <- (has_flag_bit f' 5) in H' by lia. change (2 ^ 5) with 32 in *.
      rewrite (headers_block_unpadded f block H), (headers_block_unpadded f' block H'), E3'. reflexivity.
    - subst. rewrite <- (has_flag_bit f 0), <- (has_flag_bit f' 0) in H by lia. rewrite <- (has_flag_bit f 0) in H' by lia.
      change (2 ^ 0) with 1 in *. rewrite H in *. destruct (has_flag f' 1); [reflexivity|]. specialize (H' eq_refl).
      destruct (read_settings_spec f Hc) as [(K & es & -> & _)|(K & ->)], (read_settings_spec f' Hc') as [(K' & es' & -> & _)|(K' & ->)]; cbn [obind]; tauto.
    - reflexivity.
  Qed.
  Lemma nothing_done o f d e w : chunk o f -> says_nothing (wf f) -> process_frame f d e w = Ret (FrameDone, d, e, w, []).
  Proof.
    intros Hc [H|[H1 H2]].
    - apply ignorable_done. unfold ignorable. unfold implemented in H. cbn [wf w_type] in H. now rewrite H.
    - cbn [wf w_type w_payload] in *. unfold Conn.process_frame, FRAME_TYPE_SETTINGS, FRAME_TYPE_HEADERS, FRAME_TYPE_WINDOW_UPDATE, FRAME_TYPE_GOAWAY.
      rewrite H1. cbn [Z.eqb Pos.eqb]. unfold read_window_update, subspan_first. destruct (f_payload f) as [|x0 [|x1 [|x2 [|x3 r]]]];
        [unfold lenZ in H2; cbn [length] in H2; lia..|]. reflexivity.
  Qed.

  Lemma fate_alike d e w o o' f f' r r' l : chunk o f -> chunk o' f' -> process_frame f d e w = process_frame f' d e w ->
    fate d e w (o ++ r) l -> fate d e w (o' ++ r') l.
  Proof.
    intros Hc Hc' Ep [Hi|Ho|o1 f1 r1 s d1 e1 w1 ev1 E Hc1 Hp1|o1 f1 r1 d1 e1 w1 l1 E Hc1 Hp1].
    - now apply (chunk_not_incomplete _ _ _ Hc) in Hi.
    - now apply (chunk_not_oversized _ _ _ Hc) in Ho.
    - destruct (chunk_inj _ _ _ _ _ _ Hc Hc1 E) as (-> & -> & _). rewrite Ep in Hp1. eapply fate_state; eauto.
    - destruct (chunk_inj _ _ _ _ _ _ Hc Hc1 E) as (-> & -> & _). rewrite Ep in Hp1. eapply fate_throw; eauto.
  Qed.

  Lemma final_alike l l' : all_alike l l' -> forall os fs os' fs', Forall2 chunk os fs -> map wf fs = l ->
    Forall2 chunk os' fs' -> map wf fs' = l' -> forall d e w rest x,
    final d e w (concat os ++ rest) x -> final d e w (concat os' ++ rest) x.
  Proof.
    induction 1 as [|f f' l l' Ha _ IH|f l l' Hn _ IH|f l l' Hn _ IH]; intros os fs os' fs' H E H' E' d e w rest x HF.
    - apply map_eq_nil in E, E'. subst. inversion H; subst. inversion H'; subst. exact HF.
    - destruct H as [|o g os fs Hc H]; [discriminate E|]. destruct H' as [|o' g' os' fs' Hc' H']; [discriminate E'|].
      cbn [map] in E, E'. injection E as E1 E2. injection E' as E1' E2'.
      assert (Ha' : alike (wf g) (wf g')) by (rewrite E1, E1'; exact Ha). pose proof (alike_process _ _ _ _ d e w Hc Hc' Ha') as Ep.
      cbn [concat] in *. rewrite <- app_assoc in *.
      inversion HF as [? ? ? ? ? Hf|? ? ? o1 f1 d1 e1 w1 ev1 x1 l1 Hc1 Hp1 H1]; subst.
      + apply final_stop. exact (fate_alike _ _ _ _ _ _ _ _ _ _ Hc Hc' Ep Hf).
      + match goal with E : _ ++ _ = _ ++ _ |- _ => destruct (chunk_inj _ _ _ _ _ _ Hc1 Hc E) as (-> & -> & ->) end.
        rewrite Ep in Hp1. eapply final_step; [exact Hc'|exact Hp1|]. exact (IH _ _ _ _ H eq_refl H' eq_refl _ _ _ _ _ H1).
    - destruct H as [|o g os fs Hc H]; [discriminate E|]. cbn [map] in E. injection E as E1 E2.
      assert (Hn' : says_nothing (wf g)) by (rewrite E1; exact Hn). cbn [concat] in HF. rewrite <- app_assoc in HF.
      destruct (final_step_inv _ _ _ _ _ _ _ _ _ _ _ _ _ _ _ Hc (nothing_done o g d e w Hc Hn') HF) as (x' & -> & HF'). exact (IH _ _ _ _ H E2 H' E' _ _ _ _ _ HF').
    - destruct H' as [|o g os' fs' Hc H']; [discriminate E'|]. cbn [map] in E'. injection E' as E1 E2.
      assert (Hn' : says_nothing (wf g)) by (rewrite E1; exact Hn). cbn [concat]. rewrite <- app_assoc.
      change x with ([] ++ x). eapply final_step; [exact Hc|exact (nothing_done o g d e w Hc Hn')|]. exact (IH _ _ _ _ H E H' E2 _ _ _ _ _ HF).
  Qed.
End Alike.

Lemma alike_frames W app cs T w0 A1 A2 t1 t2 ins ins' o o' rest r1 c1 tr1 w1 r2 c2 tr2 w2 :
  Forall (fun f => all_bytes (w_payload f) /\ lenZ (w_payload f) <= 16384) ins ->
  Forall (fun f => all_bytes (w_payload f) /\ lenZ (w_payload f) <= 16384) ins' ->
  frames_octets ins o -> frames_octets ins' o' -> all_alike ins ins' ->
  session W app cs T eq t1 w0 A1 r1 c1 tr1 w1 -> session W app cs T eq t2 w0 A2 r2 c2 tr2 w2 ->
  done_with (rfc_preface ++ o ++ rest) r1 tr1 -> done_with (rfc_preface ++ o' ++ rest) r2 tr2 ->
  visible tr1 = visible tr2.
Proof.
  intros Hi Hi' Ho Ho' Ha H1 H2 D1 D2. rewrite <- preface_eq in *.
  eapply session_outcome in H1; [|exact D1]. eapply session_outcome in H2; [|exact D2].
  destruct H1 as [(_ & H)|(x1 & l1 & E1 & V1 & F1)]; [now apply preface_len in H|].
  apply app_inv_head in E1. subst x1.
  assert (G : forall l b, Forall (fun f => all_bytes (w_payload f) /\ lenZ (w_payload f) <= 16384) l -> frames_octets l b ->
    exists os fs, Forall2 chunk os fs /\ b = concat os /\ map wf fs = l).
  { intros l b Hl Hb.
    assert (Hp : Forall (fun f => all_bytes (w_payload f)) l) by (eapply Forall_impl; [|exact Hl]; cbn; tauto).
    assert (Hs : Forall (fun f => lenZ (w_payload f) <= 16384) l) by (eapply Forall_impl; [|exact Hl]; cbn; tauto).
    exact (frames_chunks _ _ Hb (frames_bytes _ _ Hb Hp) Hs). }
  destruct (G _ _ Hi Ho) as (os & fs & Hc & -> & E). destruct (G _ _ Hi' Ho') as (os' & fs' & Hc' & -> & E').
  pose proof (final_alike W app cs T _ _ Ha _ _ _ _ Hc E Hc' E' _ _ _ _ _ F1) as F2.
  eapply (outcome_det W app cs T w0); [|exact H2]. right. eauto.
Qed.

(** ** Split header blocks *)
Lemma all_alike_refl l : all_alike l l.
Proof. induction l as [|f l IH]; constructor; auto. apply alike_same. Qed.
Lemma all_alike_app a a' b b' : all_alike a a' -> all_alike b b' -> all_alike (a ++ b) (a' ++ b').
Proof. intros H Hb. induction H; [exact Hb|now apply all_alike_cons|now apply all_alike_left|now apply all_alike_right]. Qed.
Lemma continued_nothing s b l : continued s b l -> Forall says_nothing l.
Proof. induction 1; repeat constructor; auto. Qed.
Lemma nothing_alike l l' : Forall says_nothing l -> all_alike l' (l ++ l').
Proof. induction 1; [apply all_alike_refl|now apply all_alike_right]. Qed.
Lemma split_alike s first rest fs f a b : split_block s first rest fs -> whole_block s first f ->
  all_alike (a ++ f :: b) (a ++ fs ++ b).
Proof.
  intros [fl p l _ _ Hp Hc] [fl' p' _ _ Hp']. apply all_alike_app; [apply all_alike_refl|].
  apply all_alike_cons; [exact (alike_headers _ _ _ first _ _ Hp' Hp)|]. apply nothing_alike. exact (continued_nothing _ _ _ Hc).
Qed.

(** ** DATA octets *)
Lemma total_app a b : total (a ++ b) = total a + total b.
Proof. induction a as [|x a IH]; [reflexivity|]. cbn [total fold_right Datatypes.app]. fold (total (a ++ b)) (total a). lia. Qed.
Lemma total_nonneg l : Forall (fun x => 0 <= x) l -> 0 <= total l.
Proof. induction 1 as [|x l Hx _ IH]; [discriminate|]. cbn [total fold_right]. fold (total l). lia. Qed.
Lemma data_of_nonneg f : 0 <= data_of f.
Proof. unfold data_of. destruct (w_type f =? 0); [apply lenZ_nonneg|lia]. Qed.
Lemma data_on_app s a b : data_on s (a ++ b) = data_on s a + data_on s b.
Proof. unfold data_on. now rewrite filter_app, map_app, total_app. Qed.
Lemma data_all_app a b : data_all (a ++ b) = data_all a + data_all b.
Proof. unfold data_all. now rewrite map_app, total_app. Qed.
Lemma data_on_nonneg s a : 0 <= data_on s a.
Proof. apply total_nonneg, Forall_forall. intros x Hx. apply in_map_iff in Hx as (f & <- & _). apply data_of_nonneg. Qed.
Lemma data_all_nonneg a : 0 <= data_all a.
Proof. apply total_nonneg, Forall_forall. intros x Hx. apply in_map_iff in Hx as (f & <- & _). apply data_of_nonneg. Qed.
Lemma increments_nonneg s a : 0 <= increments s a.
Proof.
  apply total_nonneg, Forall_forall. intros x Hx. apply in_map_iff in Hx as (f & <- & _). unfold increment.
  destruct (w_type f =? 8); [apply Z.mod_pos_bound; lia|lia].
Qed.

Lemma data_frames_data stream body fs : data_frames stream body fs ->
  data_all fs = lenZ body /\ Forall (fun f => w_stream f = stream) fs.
Proof.
  induction 1 as [c Hc|c body fs Hc _ [IH1 IH2]].
  - split; [|repeat constructor]. unfold data_all. cbn. lia.
  - split; [|constructor; auto]. unfold data_all in *. cbn [map total fold_right]. fold (total (map data_of fs)). rewrite IH1, lenZ_app. reflexivity.
Qed.
Lemma data_on_same s fs stream : Forall (fun f => w_stream f = stream) fs -> data_on s fs = if stream =? s then data_all fs else 0.
Proof.
  intros H. unfold data_on, data_all. assert (E : filter (fun f => w_stream f =? s) fs = if stream =? s then fs else []).
  { induction H as [|f fs Hf _ IH]; [now destruct (stream =? s)|]. cbn [filter]. rewrite IH, Hf. now destruct (stream =? s). }
  rewrite E. now destruct (stream =? s).
Qed.
Lemma response_data stream block body fs : response_frames stream block body fs ->
  data_all fs = lenZ body /\ Forall (fun f => w_stream f = stream) fs.
Proof.
  intros [|b l H]; [split; [reflexivity|repeat constructor]|]. apply data_frames_data in H as [H1 H2].
  split; [|now constructor]. unfold data_all in *. cbn. exact H1.
Qed.
Lemma answered_headers_length ins txs outs : answered ins txs outs -> length (filter (fun f => w_type f =? 1) ins) = length txs.
Proof.
  induction 1 as [|ins txs outs fl s p H IH Hf Hm|ins txs outs fl s p H IH Hf|ins txs outs fl s p tx fs H IH Hp Hs Hr|ins txs outs f H IH H1 H4 H7];
    rewrite ?filter_app, ?app_length; cbn [filter w_type]; try rewrite (proj2 (Z.eqb_neq _ _) H1); cbn [Z.eqb Pos.eqb length]; lia.
Qed.
Lemma combine_snoc {A B} (a : list A) (b : list B) x y : length a = length b -> combine (a ++ [x]) (b ++ [y]) = combine a b ++ [(x, y)].
Proof. revert b. induction a as [|z a IH]; intros [|z' b] E; try discriminate E; [reflexivity|]. cbn. rewrite IH; auto. Qed.
Lemma answered_data ins txs outs : answered ins txs outs ->
  data_all outs = bodies_all txs /\ forall s, data_on s outs = bodies_on s ins txs.
Proof.
  induction 1 as [|ins txs outs fl s p H [IH1 IH2] Hf Hm|ins txs outs fl s p H [IH1 IH2] Hf|ins txs outs fl s p tx fs H [IH1 IH2] Hp Hs Hr|ins txs outs f H [IH1 IH2] H1 H4 H7].
  - now split.
  - rewrite data_all_app. split; [rewrite IH1; cbn; lia|]. intros s'. rewrite data_on_app, IH2. unfold bodies_on. rewrite filter_app. cbn [filter w_type Z.eqb Pos.eqb].
    rewrite app_nil_r. unfold data_on. cbn [filter w_stream]. destruct (0 =? s'); cbn; lia.
  - split; [exact IH1|]. intros s'. rewrite IH2. unfold bodies_on. rewrite filter_app. cbn [filter w_type Z.eqb Pos.eqb]. now rewrite app_nil_r.
  - apply response_data in Hr as [R1 R2]. split.
    + rewrite data_all_app, IH1, R1. unfold bodies_all. rewrite map_app, total_app. cbn [map total fold_right]. unfold body_octets. lia.
    + intros s'. rewrite data_on_app, IH2, (data_on_same s' fs s R2), R1. unfold bodies_on. rewrite filter_app. cbn [filter w_type Z.eqb Pos.eqb].
      rewrite combine_snoc by exact (answered_headers_length _ _ _ H). rewrite filter_app, map_app, total_app. cbn [filter fst w_stream].
      destruct (s =? s'); cbn [map total fold_right snd]; unfold body_octets; lia.
  - split; [exact IH1|]. intros s'. rewrite IH2. unfold bodies_on. rewrite filter_app. cbn [filter]. rewrite (proj2 (Z.eqb_neq _ _) H1). now rewrite app_nil_r.
Qed.

Lemma by_server_app a b : by_server (a ++ b) = by_server a ++ by_server b.
Proof. apply flat_map_app. Qed.
Lemma by_client_app a b : by_client (a ++ b) = by_client a ++ by_client b.
Proof. apply flat_map_app. Qed.
Lemma initial_at_least k fs : k <= 65535 -> Forall (fun f => Forall (fun v => k <= v) (initial_sizes f)) fs -> k <= initial_size fs.
Proof.
  intros Hk H. unfold initial_size. assert (G : Forall (fun v => k <= v) (flat_map initial_sizes fs)).
  { induction H as [|f fs Hf _ IH]; [constructor|]. cbn [flat_map]. apply Forall_app. now split. }
  clear H. induction (flat_map initial_sizes fs) as [|v l IH]; [exact Hk|]. apply Forall_cons_iff in G as [G1 G2].
  destruct l as [|v' l]; [exact G1|]. exact (IH G2).
Qed.
(** Bodies that fit into the windows a client starts with are sent within its windows. *)
Lemma small_bodies ins txs outs h k byes : answered ins txs outs -> by_client h = ins -> by_server h = server_settings :: outs ++ byes ->
  Forall (fun f => w_type f <> 0) byes ->
  k <= 65535 -> Forall (fun f => Forall (fun v => k <= v) (initial_sizes f)) ins ->
  (forall s, bodies_on s ins txs <= k) -> bodies_all txs <= 65535 -> windows_honoured h.
Proof.
  intros Ha Ec Es Hb Hk Hi Hs Hall a f b -> Hf. rewrite by_client_app in Ec. rewrite by_server_app in Es. cbn [by_client by_server flat_map Datatypes.app] in Ec, Es.
  fold (by_client b) in Ec. fold (by_server b) in Es.
  assert (Hz : data_all byes = 0 /\ forall s, data_on s byes = 0).
  { assert (G : forall l, Forall (fun f => w_type f <> 0) l -> total (map data_of l) = 0).
    { induction 1 as [|g l Hg _ IH]; [reflexivity|]. cbn [map total fold_right]. fold (total (map data_of l)). rewrite IH. unfold data_of. now rewrite (proj2 (Z.eqb_neq _ _) Hg). }
    split; [now apply G|]. intros s. apply G. rewrite Forall_forall in *. intros x Hx. apply filter_In in Hx as [Hx _]. auto. }
  destruct (answered_data _ _ _ Ha) as [D1 D2]. destruct Hz as [Z1 Z2].
  assert (A1 : data_all (by_server a) + lenZ (w_payload f) <= data_all outs).
  { pose proof (f_equal data_all Es) as E. change (server_settings :: outs ++ byes) with ([server_settings] ++ outs ++ byes) in E.
    change (f :: by_server b) with ([f] ++ by_server b) in E. rewrite !data_all_app, Z1 in E. pose proof (data_all_nonneg (by_server b)).
    change (data_all [server_settings]) with 0 in E. unfold data_all at 2 in E. cbn [map total fold_right] in E. unfold data_of in E. rewrite Hf in E. cbn [Z.eqb] in E. lia. }
  assert (A2 : data_on (w_stream f) (by_server a) + lenZ (w_payload f) <= data_on (w_stream f) outs).
  { pose proof (f_equal (data_on (w_stream f)) Es) as E. change (server_settings :: outs ++ byes) with ([server_settings] ++ outs ++ byes) in E.
    change (f :: by_server b) with ([f] ++ by_server b) in E. rewrite !data_on_app, Z2 in E. pose proof (data_on_nonneg (w_stream f) (by_server b)).
    rewrite (data_on_same _ [server_settings] 0) in E by (repeat constructor). change (data_all [server_settings]) with 0 in E.
    rewrite (data_on_same _ [f] (w_stream f)) in E by (repeat constructor). rewrite Z.eqb_refl in E. unfold data_all in E. cbn [map total fold_right] in E. unfold data_of in E. rewrite Hf in E. cbn [Z.eqb] in E.
    destruct (w_stream f); lia. }
  rewrite <- Ec in Hi. apply Forall_app in Hi as [Hi _]. pose proof (initial_at_least k _ Hk Hi) as I.
  pose proof (increments_nonneg (w_stream f) (by_client a)). pose proof (increments_nonneg 0 (by_client a)).
  unfold stream_window, connection_window. rewrite D2 in A2. specialize (Hs (w_stream f)). lia.
Qed.

(** ** The work of one call *)
Section Work.
  Variable W : Type.
  Variable app : request -> W -> W * app_answer.
  Variable cs : bool.
  Variable T : tree.

  Definition slack (s : conn_state) : Z :=
    match s with AwaitingHandshake | AwaitingPreface => 2 | _ => 1 end.
  Definition working (K : Z) (c : conn) (tr : trace) (_ : W) : Prop :=
    all_bytes (c_rbuf c) /\ 9 * lenZ (visible tr) + 4 * lenZ (c_rbuf c) + 9 * slack (c_state c) <= K + 4 * lenZ (received tr).

  Lemma visible_app a b : visible (a ++ b) = visible a ++ visible b.
  Proof. apply filter_app. Qed.
  Lemma frame_work f d e w fe d' e' w' ev : process_frame W app cs T f d e w = Ret (fe, d', e', w', ev) ->
    lenZ (visible ev) <= 4 /\ received ev = [] /\ (fe <> FrameDone -> lenZ (visible ev) <= 1).
  Proof.
    intros H.
    assert (R : forall hdrs w w' resp evr, process_request W app hdrs w = (w', resp, evr) -> lenZ (visible evr) <= 1 /\ received evr = []).
    { intros hdrs w1 w2 resp evr. unfold process_request. destruct (get_header _ _); [|intros [= _ _ <-]; now split].
      destruct (get_header _ _); [|intros [= _ _ <-]; now split]. destruct (app _ _) as [w3 []]; intros [= _ _ <-]; now split. }
    apply process_frame_inv in H as [(_ & _ & -> & _ & _ & _ & ->)|[(_ & _ & -> & _ & _ & _ & -> & _)|[(_ & _ & -> & _ & _ & _ & -> & _)|
      [(_ & -> & _ & _ & _ & -> & _)|[(_ & -> & _ & _ & _ & ->)|[(_ & _ & _ & _ & -> & _ & _ & _ & ->)|(_ & block & _ & H)]]]]]];
      try (split; [discriminate|split; [reflexivity|easy]]).
    destruct H as [(_ & -> & _ & _ & _ & ->)|[(er & _ & -> & _ & _ & ->)|(hdrs & resp & evr & _ & Er & H)]];
      try (split; [discriminate|split; [reflexivity|easy]]).
    apply R in Er as [R1 R2].
    destruct H as [(_ & -> & _ & ->)|(rs & _ & [(_ & -> & _ & ->)|(block' & data & _ & _ & -> & ->)])]; try (split; [lia|split; [exact R2|intros _; exact R1]]).
    rewrite visible_app, lenZ_app. split; [|split; [|easy]].
    - change (lenZ (visible _)) with (lenZ (visible evr)) at 1. cbn [visible filter lenZ length]. unfold lenZ in *. cbn [length]. lia.
    - unfold received. rewrite flat_map_app. unfold received in R2. rewrite R2. reflexivity.
  Qed.
  Lemma chunk_nine o f : chunk o f -> 9 <= lenZ o.
  Proof. now intros (H & _). Qed.
  Lemma try_work K c tr w v c' ev w' : try_read_frame W app cs T c w = Ret (v, c', ev, w') -> all_bytes (c_rbuf c) -> c_state c = AwaitingFrame ->
    9 * lenZ (visible tr) + 4 * lenZ (c_rbuf c) + 9 <= K + 4 * lenZ (received tr) ->
    9 * lenZ (visible (tr ++ ev)) <= K + 4 * lenZ (received (tr ++ ev)) /\ (v <> Return DiscardConnection -> v <> Exception -> working K c' (tr ++ ev) w').
  Proof.
    intros H Hb Hs Hk. apply try_read_frame_inv in H; [|exact Hb]. pose proof (lenZ_nonneg (c_rbuf c)).
    destruct H as [(-> & -> & -> & _ & _)|[(-> & -> & -> & _ & _)|(o & rest & f & fe & d & e & Er & Hc & Hp & Hv)]].
    - rewrite app_nil_r. split; [lia|]. intros _ _. split; [exact Hb|]. rewrite Hs. cbn [slack]. lia.
    - rewrite app_nil_r. split; [lia|]. intros _ _. split; [exact Hb|]. cbn [set_state c_rbuf c_state slack]. lia.
    - apply frame_work in Hp as (H1 & H2 & H3). apply chunk_nine in Hc. rewrite Er, lenZ_app in Hk. pose proof (lenZ_nonneg rest).
      assert (Hr : received (tr ++ ev) = received tr) by (unfold received in *; rewrite flat_map_app, H2; apply app_nil_r).
      rewrite visible_app, lenZ_app, Hr. split; [lia|]. intros _ Hv'. rewrite Er in Hb. apply all_bytes_app in Hb as [_ Hb].
      unfold working. rewrite visible_app, lenZ_app, Hr.
      destruct fe as [|s|]; destruct Hv as [Hv ->]; rewrite Hv in Hv'; try (now contradiction Hv'); cbn [c_rbuf c_state]; (split; [exact Hb|]).
      + rewrite Hs. cbn [slack]. lia.
      + specialize (H3 ltac:(discriminate)). assert (slack s <= 2) by (destruct s; cbn; lia). lia.
  Qed.

  Lemma call_work s c w r c' ev w' : scripts_ok s -> all_bytes (c_rbuf c) ->
    process W app cs T s c w = Ret (r, c', ev, w') ->
    9 * lenZ (visible ev) <= 4 * (lenZ (c_rbuf c) + lenZ (received ev)) + 18.
  Proof.
    intros Hok Hb E. set (K := 4 * lenZ (c_rbuf c) + 18).
    assert (G : 9 * lenZ (visible ([] ++ ev)) <= K + 4 * lenZ (received ([] ++ ev))); [|cbn [Datatypes.app] in G; subst K; lia].
    assert (Q1 : forall tr e, visible [e] = [] -> visible (tr ++ [e]) = visible tr) by (intros tr e H; now rewrite visible_app, H, app_nil_r).
    assert (Q2 : forall tr e, received [e] = [] -> received (tr ++ [e]) = received tr) by (intros tr e H; unfold received in *; now rewrite flat_map_app, H, app_nil_r).
    assert (Q3 : forall c tr w, working K c tr w -> 9 * lenZ (visible tr) + 4 * lenZ (c_rbuf c) <= K + 4 * lenZ (received tr)).
    { intros c1 tr w1 [_ H]. assert (0 <= slack (c_state c1)) by (destruct (c_state c1); cbn; lia). lia. }
    assert (Q4 : forall c tr w, working K c tr w -> 9 * lenZ (visible tr) <= K + 4 * lenZ (received tr)).
    { intros c1 tr w1 H. apply Q3 in H. pose proof (lenZ_nonneg (c_rbuf c1)). lia. }
    assert (D : forall c tr w v c' ev w', working K c tr w -> c_state c <> AwaitingHandshake -> dispatch W app cs T c w = Ret (v, c', ev, w') ->
      9 * lenZ (visible (tr ++ ev)) <= K + 4 * lenZ (received (tr ++ ev)) /\ (v <> Return DiscardConnection -> v <> Exception -> working K c' (tr ++ ev) w')).
    { intros c1 tr w1 v c2 ev2 w2 HP Hs ED. pose proof HP as [Hb1 Hk1]. pose proof (Q4 _ _ _ HP) as Hk2. pose proof (lenZ_nonneg (c_rbuf c1)).
      apply dispatch_inv in ED as [(_ & _ & -> & -> & -> & ->)|[(_ & _ & _ & -> & -> & -> & ->)|[(rest & ev3 & Es & Er & -> & Et)|[(Es & Et)|
        [(Es & -> & -> & -> & ->)|[(Es & -> & -> & -> & ->)|(Es & -> & -> & -> & ->)]]]]]]; auto;
        try (rewrite app_nil_r; split; [exact Hk2|intros _ _; exact HP]).
      - replace (tr ++ EvQueue write_settings :: ev3) with ((tr ++ [EvQueue write_settings]) ++ ev3) by now rewrite <- app_assoc.
        apply (try_work K _ (tr ++ [EvQueue write_settings]) w1 v c2 ev3 w2 Et); auto.
        + cbn [c_rbuf]. rewrite Er in Hb1. now apply all_bytes_app in Hb1.
        + cbn [c_rbuf]. rewrite Er, lenZ_app in Hk1. change (lenZ CLIENT_PREFACE) with 24 in Hk1. rewrite Es in Hk1. cbn [slack] in Hk1.
          rewrite visible_app, lenZ_app. change (lenZ (visible [EvQueue write_settings])) with 1. rewrite Q2 by reflexivity. lia.
      - apply (try_work K _ tr w1 v c2 ev2 w2 Et); auto. rewrite Es in Hk1. exact Hk1.
      - rewrite Q1, Q2 by reflexivity. split; [exact Hk2|intros X; now contradiction X].
      - rewrite visible_app, lenZ_app, Q2 by reflexivity. change (lenZ (visible [EvQueue (write_goaway 1 1)])) with 1. rewrite Es in Hk1. cbn [slack] in Hk1. split; [lia|intros X; now contradiction X]. }
    enough (G : 9 * lenZ (visible ([] ++ ev)) <= K + 4 * lenZ (received ([] ++ ev)) /\ (r <> DiscardConnection -> working K c' ([] ++ ev) w')) by exact (proj1 G).
    eapply (process_rule W app cs T (fun _ _ => False) (fun _ => True) (fun _ => True) (working K)
      (fun r c tr w => 9 * lenZ (visible tr) <= K + 4 * lenZ (received tr) /\ (r <> DiscardConnection -> working K c tr w))) with (c := c) (w := w); [..|exact E].
    - intros c1 tr w1 w2 _ [].
    - intros r1 c1 tr w1 w2 _ [].
    - intros now c1 tr w1 [H1 H2] Es. split; [exact H1|]. rewrite Q1, Q2 by reflexivity. rewrite Es in H2. exact H2.
    - intros c1 tr w1 H _. split; [exact (Q4 _ _ _ H)|auto].
    - intros e c1 tr w1 H _ _. rewrite Q1, Q2 by reflexivity. split; [exact (Q4 _ _ _ H)|easy].
    - intros wr c1 tr w1 c2 ev2 wr' [H1 H2] _ Hs E1. unfold flush_write_buffer in E1.
      assert (HS : forall s, c_state c1 = s -> 1 <= slack s) by (intros s1 _; destruct s1; cbn; lia). specialize (HS _ eq_refl).
      destruct (c_wbuf c1); [injection E1 as <- <- _; rewrite app_nil_r; now split|].
      destruct wr as [|[now [n|k|e]] wr]; injection E1 as <- <- _; unfold working; rewrite Q1, Q2 by reflexivity; try (now split);
        try (split; [exact H1|]; cbn [set_state c_rbuf c_state slack]; lia).
      destruct e; split; auto; cbn [set_state c_rbuf c_state slack]; lia.
    - intros c1 tr w1 H _. split; [exact (Q4 _ _ _ H)|auto].
    - intros now o c1 tr w1 [H1 H2] _ _ _ Ho _ _. split; [cbn [c_rbuf]; now apply all_bytes_app|]. cbn [c_rbuf c_state]. rewrite lenZ_app, Q1 by reflexivity.
      unfold received in *. rewrite flat_map_app, lenZ_app. cbn [flat_map]. rewrite app_nil_r. lia.
    - intros now e c1 tr w1 [H1 H2] _ Hs _. unfold working. rewrite Q1, Q2 by reflexivity.
      assert (HS : 1 <= slack (c_state c1)) by (destruct (c_state c1); cbn; lia). destruct e; split; auto; cbn [set_state c_rbuf c_state slack]; lia.
    - intros c1 tr w1 c2 ev2 w2 H _ Hs ED. apply (proj2 (D _ _ _ _ _ _ _ H Hs ED)); discriminate.
    - intros c1 tr w1 r1 c2 ev2 w2 H _ Hs ED. destruct (D _ _ _ _ _ _ _ H Hs ED) as [D1 D2]. split; [exact D1|]. intros Hr. apply D2; [congruence|discriminate].
    - intros c1 tr w1 c2 ev2 w2 H _ Hs ED. split; [exact (proj1 (D _ _ _ _ _ _ _ H Hs ED))|easy].
    - intros r1 c1 tr w1 [_ H] Hr. auto.
    - split; [exact Hb|]. subst K. cbn. destruct (c_state c); cbn; lia.
    - exact Hok.
    - now apply Forall_forall.
    - now apply Forall_forall.
  Qed.
End Work.
