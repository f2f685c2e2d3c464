(** What is not public in requests stays unseen. *)
From Verif Require Import FileSys Files Router SpecRouter RouterProofs App AppProofs.
From Verif Require Import Base BaseLemmas SpecFrames SpecHpack HpackLemmas Huffman HuffmanProofs DynTable HpackDec HpackDecProofs HpackEnc
  Frames FramesProofs Http Conn SpecConn SpecRules SpecPrivate AccessLog ConnLemmas ConnRule ConnBasic ConnTerm ConnRun ConnSpec ConnMain ConnDet ConnMore ConnUndef ConnLast ConnFlow RulesProofs.

(** The same but for what is not public. *)
Definition veiled (public : list bytes) (e e' : event) : Prop :=
  match e, e' with
  | EvRequest r a, EvRequest r' a' => like_request public r r' /\ a = a'
  | EvLog hs st sz, EvLog hs' st' sz' => same_public public hs hs' /\ st = st' /\ sz = sz'
  | _, _ => e = e'
  end.

Lemma same_public_get public n hs hs' : In n public -> same_public public hs hs' -> get_header hs n = get_header hs' n.
Proof.
  unfold get_header. intros Hn H. induction H as [|h hs hs' _ IH|h hs hs' Hh _ IH|h hs hs' Hh _ IH]; [reflexivity|..]; cbn [find].
  - destruct (bytes_eqb (h_name h) n); [reflexivity|exact IH].
  - destruct (bytes_eqb (h_name h) n) eqn:E; [apply bytes_eqb_eq in E; now subst n|exact IH].
  - destruct (bytes_eqb (h_name h) n) eqn:E; [apply bytes_eqb_eq in E; now subst n|exact IH].
Qed.
Lemma same_public_recorded public n hs hs' : In n public -> same_public public hs hs' -> recorded n hs = recorded n hs'.
Proof.
  unfold recorded. intros Hn H. generalize (str "-"). induction H as [|h hs hs' _ IH|h hs hs' Hh _ IH|h hs hs' Hh _ IH]; intros v; [reflexivity|..]; cbn [fold_left].
  - apply IH.
  - destruct (bytes_eqb (h_name h) n) eqn:E; [apply bytes_eqb_eq in E; now subst n|apply IH].
  - destruct (bytes_eqb (h_name h) n) eqn:E; [apply bytes_eqb_eq in E; now subst n|apply IH].
Qed.

Section Private.
  Variable W : Type.
  Variable app : request -> W -> W * app_answer.
  Variable cs : bool.
  Variable public : list bytes.
  Hypothesis Hpub : In (str ":method") public /\ In (str ":path") public.
  Hypothesis Happ : discreet public app.
  Notation T := the_tree.
  Notation process_frame := (process_frame W app cs T).
  Notation fate := (fate W app cs T).
  Notation final := (final W app cs T).
  Notation same := (veiled public).

  Lemma veiled_refl e : same e e.
  Proof. assert (P : forall hs, same_public public hs hs) by (induction hs; constructor; auto). destruct e; cbn; unfold like_request; auto. Qed.
  Lemma veiled_all l : Forall2 same l l.
  Proof. induction l; constructor; auto using veiled_refl. Qed.

  Lemma veiled_request hs hs' w w' resp ev : same_public public hs hs' -> process_request W app hs w = (w', resp, ev) ->
    exists ev', process_request W app hs' w = (w', resp, ev') /\ Forall2 same ev ev'.
  Proof.
    intros H. unfold process_request. rewrite <- (same_public_get _ _ _ _ (proj2 Hpub) H), <- (same_public_get _ _ _ _ (proj1 Hpub) H).
    destruct (get_header hs (str ":path")) as [p|]; [|intros [= <- <- <-]; eexists; split; [reflexivity|constructor]].
    destruct (get_header hs (str ":method")) as [m|]; [|intros [= <- <- <-]; eexists; split; [reflexivity|constructor]].
    assert (L : like_request public (Request m p hs) (Request m p hs')) by (repeat split; exact H).
    rewrite <- (Happ _ _ w L). destruct (app (Request m p hs) w) as [w1 a].
    destruct a; intros [= <- <- <-]; (eexists; split; [reflexivity|]); (constructor; [|constructor]); cbn; auto.
  Qed.

  Lemma veiled_headers f f' d d' b b' hs hs' d2 d2' e w fe d1 e1 w1 ev :
    f_type f = 1 -> f_type f' = 1 -> f_stream f' = f_stream f -> headers_block f = Ret b -> headers_block f' = Ret b' ->
    hpack_decode T d b = Ret (Val hs, d2) -> hpack_decode T d' b' = Ret (Val hs', d2') -> same_public public hs hs' ->
    process_frame f d e w = Ret (fe, d1, e1, w1, ev) ->
    exists ev', process_frame f' d' e w = Ret (fe, d2', e1, w1, ev') /\ Forall2 same ev ev' /\ d1 = d2.
  Proof.
    intros E1 E1' Es Eb Eb' Ed Ed' Hs Hp.
    unfold Conn.process_frame, FRAME_TYPE_SETTINGS, FRAME_TYPE_HEADERS in *. rewrite E1 in Hp. rewrite E1'. cbn [Z.eqb Pos.eqb] in *.
    rewrite Eb in Hp. rewrite Eb'. cbn [obind] in *. rewrite Ed in Hp. rewrite Ed', Es. clear E1 E1' Es Eb Eb' Ed Ed'.
    destruct (process_request W app hs w) as [[w' resp] ev0] eqn:Er. destruct (veiled_request _ _ _ _ _ _ Hs Er) as (ev0' & -> & H0).
    destruct resp as [rs|]; [|injection Hp as <- <- <- <- <-; eauto].
    destruct (hpack_encode cs e (rs_headers rs)) as [[b1 e']| | |]; [|injection Hp as <- <- <- <- <-; eauto|discriminate Hp..].
    destruct (write_data_response _ _ _) as [data| | |]; cbn [obind] in *; [|discriminate Hp..].
    injection Hp as <- <- <- <- <-. eexists. split; [reflexivity|]. split; [|reflexivity].
    apply Forall2_app; [exact H0|]. constructor; [reflexivity|]. constructor; [reflexivity|]. constructor; [|constructor]. cbn. auto.
  Qed.

  Lemma veiled_other f d d' e w fe d1 e1 w1 ev : f_type f <> 1 -> process_frame f d e w = Ret (fe, d1, e1, w1, ev) ->
    process_frame f d' e w = Ret (fe, d', e1, w1, ev) /\ d1 = d.
  Proof.
    intros N1. unfold Conn.process_frame, FRAME_TYPE_SETTINGS, FRAME_TYPE_HEADERS, FRAME_TYPE_WINDOW_UPDATE, FRAME_TYPE_GOAWAY.
    destruct (f_type f =? 4).
    - destruct (has_flag f 1); [intros [= <- <- <- <- <-]; auto|].
      destruct (read_settings f) as [[?|?]| | |]; cbn [obind]; [| |discriminate..]; intros [= <- <- <- <- <-]; auto.
    - destruct (Z.eqb_spec (f_type f) 1); [easy|].
      destruct (f_type f =? 8); [destruct (read_window_update f); cbn [obind]; [|discriminate..]|destruct (f_type f =? 7)];
        intros [= <- <- <- <- <-]; auto.
  Qed.

  Lemma block_read f b : headers_payload false (Z.testbit (w_flags (wf f)) 5) b (w_payload (wf f)) -> headers_block f = Ret b.
  Proof. intros H. apply headers_block_unpadded. change 32 with (2 ^ 5). now rewrite has_flag_bit by lia. Qed.

  Lemma blocks_cons_headers f ins bs hss st st' : w_type f = 1 -> blocks_of (f :: ins) bs -> rfc_blocks SP st bs hss st' ->
    exists b bs' hs hss' st1, bs = b :: bs' /\ hss = hs :: hss' /\ headers_payload false (Z.testbit (w_flags f) 5) b (w_payload f) /\ blocks_of ins bs' /\
      rfc_block SP st b hs st1 /\ rfc_blocks SP st1 bs' hss' st'.
  Proof.
    unfold blocks_of. cbn [filter]. intros ->. cbn [Z.eqb Pos.eqb]. intros Hb Hd. inversion Hb as [|? b ? bs' H1 H2]; subst.
    inversion Hd; subst. do 5 eexists. split; [reflexivity|]. split; [reflexivity|]. eauto.
  Qed.
  Lemma blocks_cons_other f ins bs : w_type f <> 1 -> blocks_of (f :: ins) bs -> blocks_of ins bs.
  Proof. unfold blocks_of. cbn [filter]. destruct (Z.eqb_spec (w_type f) 1); [easy|auto]. Qed.

  (** One frame in both runs. *)
  Lemma veiled_frame o f o' f' ins ins' bs bs' hss hss' st st' d d' e w fe d1 e1 w1 ev :
    chunk o f -> chunk o' f' -> like_frame (wf f) (wf f') -> table_ok d -> table_ok d' ->
    blocks_of (wf f :: ins) bs -> rfc_blocks SP (state_of d) bs hss st ->
    blocks_of (wf f' :: ins') bs' -> rfc_blocks SP (state_of d') bs' hss' st' -> Forall2 (same_public public) hss hss' ->
    process_frame f d e w = Ret (fe, d1, e1, w1, ev) ->
    exists d1' ev' cs1 cs1' fss1 fss1', process_frame f' d' e w = Ret (fe, d1', e1, w1, ev') /\ Forall2 same ev ev' /\ table_ok d1 /\ table_ok d1' /\
      blocks_of ins cs1 /\ rfc_blocks SP (state_of d1) cs1 fss1 st /\
      blocks_of ins' cs1' /\ rfc_blocks SP (state_of d1') cs1' fss1' st' /\ Forall2 (same_public public) fss1 fss1'.
  Proof.
    intros Hc Hc' L K K' Hb Hd Hb' Hd' Hs Hp. destruct (Z.eq_dec (f_type f) 1) as [E1|N1].
    - assert (E1' : f_type f' = 1 /\ f_stream f' = f_stream f).
      { change (f_type f') with (w_type (wf f')). change (f_stream f') with (w_stream (wf f')). change (f_stream f) with (w_stream (wf f)).
        change (f_type f) with (w_type (wf f)) in E1. destruct L; auto. }
      destruct E1' as [E1' Es].
      destruct (blocks_cons_headers (wf f) _ _ _ _ _ E1 Hb Hd) as (b & bs1 & hs & hss1 & st1 & -> & -> & P & B & D & R).
      destruct (blocks_cons_headers (wf f') _ _ _ _ _ E1' Hb' Hd') as (b' & bs1' & hs' & hss1' & st1' & -> & -> & P' & B' & D' & R').
      apply block_read in P, P'. inversion Hs as [|? ? ? ? Hs1 Hs2]; subst.
      assert (Bb : all_bytes b) by (eapply headers_block_bytes; [|exact P]; exact (chunk_bytes _ _ Hc)).
      assert (Bb' : all_bytes b') by (eapply headers_block_bytes; [|exact P']; exact (chunk_bytes _ _ Hc')).
      destruct (hpack_decode_complete _ _ _ _ K Bb D) as (d2 & X & K2 & <-).
      destruct (hpack_decode_complete _ _ _ _ K' Bb' D') as (d2' & X' & K2' & <-).
      destruct (veiled_headers _ _ _ _ _ _ _ _ _ _ _ _ _ _ _ _ _ E1 E1' Es P P' X X' Hs1 Hp) as (ev' & Hp' & Hv & ->).
      exists d2', ev', bs1, bs1', hss1, hss1'. auto 12.
    - assert (wf f' = wf f) as E by (change (f_type f) with (w_type (wf f)) in N1; destruct L; [reflexivity|now destruct N1]).
      pose proof (chunk_wf_inj _ _ _ _ Hc' Hc E) as ->. destruct (veiled_other _ _ d' _ _ _ _ _ _ _ N1 Hp) as [Hp' ->].
      apply blocks_cons_other in Hb, Hb'; [|exact N1|exact N1].
      exists d', ev, bs, bs', hss, hss'. split; [exact Hp'|]. split; [apply veiled_all|]. auto 12.
  Qed.

  Lemma final_nil d e w x : final d e w [] x -> x = [].
  Proof.
    intros Hf. inversion Hf as [? ? ? ? ? Hf'|? ? ? o1 f1 d2 e2 w2' ev2 x2 l2 Hc1 Hp1 H]; subst.
    - destruct Hf' as [Hx|Hx|o1 f1 r s d2 e2 w2' ev2 Ex Hc1 Hp1|o1 f1 r d2 e2 w2' l2 Ex Hc1 Hp1]; [reflexivity|destruct Hx as [Hx _]; unfold lenZ in Hx; cbn in Hx; lia|..];
        symmetry in Ex; apply app_eq_nil in Ex as [-> _]; destruct Hc1 as [Hc1 _]; unfold lenZ in Hc1; cbn in Hc1; lia.
    - match goal with Ex : _ ++ _ = [] |- _ => apply app_eq_nil in Ex as [-> _] end. destruct Hc1 as [Hc1 _]; unfold lenZ in Hc1; cbn in Hc1; lia.
  Qed.

  Lemma final_veiled os fs : Forall2 chunk os fs -> forall os' fs', Forall2 chunk os' fs' -> Forall2 like_frame (map wf fs) (map wf fs') ->
    forall d d' bs bs' hss hss' st st' e w x, table_ok d -> table_ok d' ->
    blocks_of (map wf fs) bs -> rfc_blocks SP (state_of d) bs hss st ->
    blocks_of (map wf fs') bs' -> rfc_blocks SP (state_of d') bs' hss' st' -> Forall2 (same_public public) hss hss' ->
    final d e w (concat os) x -> exists x', final d' e w (concat os') x' /\ Forall2 same x x'.
  Proof.
    induction 1 as [|o f os fs Hc _ IH]; intros os' fs' H' L d d' bs bs' hss hss' st st' e w x K K' Hb Hd Hb' Hd' Hs HF.
    - cbn [map] in L. destruct H' as [|o' f' os' fs' Hc' H']; [|inversion L]. cbn [concat] in *. apply final_nil in HF as ->.
      exists []. split; [|constructor]. apply final_stop, fate_wait. left. reflexivity.
    - destruct H' as [|o' f' os' fs' Hc' H']; cbn [map] in L; [inversion L|]. inversion L as [|? ? ? ? L1 L2]; subst. cbn [concat map] in *.
      inversion HF as [? ? ? ? ? Hf|? ? ? o1 f1 d1 e1 w1 ev1 x1 l1 Hc1 Hp1 H1]; subst.
      + destruct Hf as [Hi|Ho|o1 f1 r1 s d1 e1 w1 ev1 Ex Hc1 Hp1|o1 f1 r1 d1 e1 w1 l1 Ex Hc1 Hp1].
        * now apply (chunk_not_incomplete _ _ _ Hc) in Hi.
        * now apply (chunk_not_oversized _ _ _ Hc) in Ho.
        * destruct (chunk_inj _ _ _ _ _ _ Hc Hc1 Ex) as (-> & -> & _).
          destruct (veiled_frame _ _ _ _ _ _ _ _ _ _ _ _ _ _ _ _ _ _ _ _ _ Hc1 Hc' L1 K K' Hb Hd Hb' Hd' Hs Hp1) as (d1' & ev' & _ & _ & _ & _ & Hp' & _).
          eexists. split; [apply final_stop; eapply fate_state; eauto|]. apply veiled_all.
        * destruct (chunk_inj _ _ _ _ _ _ Hc Hc1 Ex) as (-> & -> & _).
          destruct (veiled_frame _ _ _ _ _ _ _ _ _ _ _ _ _ _ _ _ _ _ _ _ _ Hc1 Hc' L1 K K' Hb Hd Hb' Hd' Hs Hp1) as (d1' & ev' & _ & _ & _ & _ & Hp' & Hv & _).
          exists ev'. split; [apply final_stop; eapply fate_throw; eauto|exact Hv].
      + match goal with E : _ ++ _ = _ ++ _ |- _ => destruct (chunk_inj _ _ _ _ _ _ Hc1 Hc E) as (-> & -> & ->) end.
        destruct (veiled_frame _ _ _ _ _ _ _ _ _ _ _ _ _ _ _ _ _ _ _ _ _ Hc Hc' L1 K K' Hb Hd Hb' Hd' Hs Hp1)
          as (d1' & ev' & b1 & b1' & h1 & h1' & Hp' & Hv & K1 & K1' & B1 & D1 & B1' & D1' & S1).
        destruct (IH _ _ H' L2 _ _ _ _ _ _ _ _ _ _ _ K1 K1' B1 D1 B1' D1' S1 H1) as (x' & F' & Hx).
        exists (ev' ++ x'). split; [eapply final_step; eauto|]. now apply Forall2_app.
  Qed.
End Private.

Lemma veiled_parts public l l' : Forall2 (veiled public) l l' ->
  queued l = queued l' /\ Forall2 (fun x x' => like_request public (fst x) (fst x') /\ snd x = snd x') (requests l) (requests l') /\
  Forall2 (fun x x' => same_public public (fst (fst x)) (fst (fst x')) /\ snd (fst x) = snd (fst x') /\ snd x = snd x') (logged l) (logged l').
Proof.
  induction 1 as [|e e' l l' H _ (IH1 & IH2 & IH3)]; [repeat constructor|].
  unfold queued, requests, logged in *. cbn [flat_map].
  destruct e, e'; cbn [veiled] in H; try discriminate H;
    (split; [congruence|split; [try exact IH2|try exact IH3]]); (apply Forall2_cons; [cbn [fst snd]; exact H|assumption]).
Qed.

Lemma veiled_sessions W app cs T w0 public A1 A2 t1 t2 ins ins' o o' hss hss' r1 c1 tr1 w1 r2 c2 tr2 w2 :
  is_tree T -> In (str ":method") public /\ In (str ":path") public -> discreet public app ->
  sends ins o hss -> sends ins' o' hss' -> Forall2 like_frame ins ins' -> Forall2 (same_public public) hss hss' ->
  session W app cs T eq t1 w0 A1 r1 c1 tr1 w1 -> session W app cs T eq t2 w0 A2 r2 c2 tr2 w2 ->
  done_with (rfc_preface ++ o) r1 tr1 -> done_with (rfc_preface ++ o') r2 tr2 ->
  Forall2 (veiled public) (visible tr1) (visible tr2).
Proof.
  intros [->%tree_unique] Hpub Happ (Ho & Hi & bs & st & Hb & Hd) (Ho' & Hi' & bs' & st' & Hb' & Hd') L Hs H1 H2 D1 D2.
  rewrite <- preface_eq in *.
  eapply session_outcome in H1; [|exact D1]. eapply session_outcome in H2; [|exact D2].
  destruct H1 as [(_ & H)|(x1 & l1 & E1 & V1 & F1)]; [now apply preface_len in H|]. apply app_inv_head in E1. subst x1.
  destruct H2 as [(_ & H)|(x2 & l2 & E2 & V2 & F2)]; [now apply preface_len in H|]. apply app_inv_head in E2. subst x2.
  destruct (carried_chunks _ _ Hi Ho) as (os & fs & Hc & -> & <-).
  destruct (carried_chunks _ _ Hi' Ho') as (os' & fs' & Hc' & -> & <-).
  destruct (final_veiled W app cs public Hpub Happ _ _ Hc _ _ Hc' L _ _ _ _ _ _ _ _ _ _ _ table_ok_init table_ok_init Hb Hd Hb' Hd' Hs F1) as (x' & F3 & Hx).
  rewrite (visible_acts tr1), (visible_acts tr2), V1, V2, <- (final_det _ _ _ _ _ _ _ _ _ F3 _ F2).
  constructor; [apply veiled_refl|exact Hx].
Qed.

(** ** The shipped program *)
Section Blind.
  Variable page : stats -> Z -> bytes.

  (** Handlers that do not look at the request. *)
  Definition blind (h : handler world) : Prop := forall rq rq' w, h rq w = h rq' w.
  Definition blind_registration (x : registration world) : Prop :=
    match x with
    | AddRoute _ _ h => blind h
    | AddStatic _ => True
    | AddMiddleware m => forall h w, blind h -> exists h', m h w = (w, Some h') /\ blind h'
    end.
  Lemma main_blind_registrations a : Forall blind_registration (main_registrations page a).
  Proof.
    unfold main_registrations. apply Forall_app. split.
    { destruct (a_under_test a); [|constructor]. repeat (apply Forall_cons; [intros rq rq' w; reflexivity|]). apply Forall_nil. }
    apply Forall_app. split.
    - destruct (a_status_page a); [|constructor]. unfold status_page.
      apply Forall_cons; [|apply Forall_cons; [intros rq rq' w; reflexivity|apply Forall_nil]].
      intros h w Hh. unfold stats_middleware. eexists. split; [reflexivity|]. intros rq rq' w'. cbv zeta. cbn [read_clock].
      match goal with |- context [h rq ?x] => rewrite (Hh rq rq' x) end. reflexivity.
    - apply Forall_app. split; [destruct (a_static_map a) as [|u [|r [|]]]; repeat constructor|].
      destruct (a_status_404_file_path a) as [|c f]; constructor; [|constructor].
      intros h w Hh. eexists. split; [reflexivity|]. intros rq rq' w'. now rewrite (Hh rq rq' w').
  Qed.

  Lemma main_app_blind a rq rq' w : rq_method rq = rq_method rq' -> rq_path rq = rq_path rq' -> main_app page a rq w = main_app page a rq' w.
  Proof.
    intros Em Ep. unfold main_app. set (xs := main_registrations page a). pose proof (main_blind_registrations a) as HT. fold xs in HT.
    destruct (target_spec world w_os xs (rq_path rq) (rq_method rq)) as (d & h & Hc & Hans & Hg).
    assert (Hh : blind h).
    { clear Hg. destruct Hans as [h|s h H|h H].
      - inversion Hc as [a' b' h' E' _| |]; subst. rewrite E' in HT. apply Forall_app in HT as [_ HT]. now apply Forall_cons_iff in HT as [HT _].
      - intros r r' w'. destruct (H r w') as (x & E & ->). destruct (H r' w') as (x' & E' & ->). congruence.
      - intros r r' w'. now rewrite !H. }
    assert (HM : Forall (fun m : middleware world => forall h w, blind h -> exists h', m h w = (w, Some h') /\ blind h') (middlewares world xs)).
    { clear -HT. induction HT as [|x xs Hx _ IH]; [constructor|]. unfold middlewares. cbn [flat_map]. apply Forall_app.
      split; [|exact IH]. destruct x; constructor; auto. }
    assert (HW : exists h', wraps world (middlewares world xs) h w (w, Some h') /\ blind h').
    { clear -HM Hh. revert h Hh. induction (middlewares world xs) as [|m ms IH] using rev_ind; intros h Hh.
      - exists h. split; [constructor|auto].
      - apply Forall_app in HM as [HM Hm]. apply Forall_cons_iff in Hm as [Hm _]. destruct (Hm h w Hh) as (h1 & E & H1).
        destruct (IH HM h1 H1) as (h' & H2 & H3). exists h'. split; [eapply wraps_more; eauto|auto]. }
    destruct HW as (h' & HW & Hb). unfold Router.dispatch. rewrite <- Em, <- Ep, Hg.
    rewrite (wraps_unique _ _ _ _ _ (configure_chain world xs h w) _ HW). now rewrite (Hb rq rq' w).
  Qed.
End Blind.

(** ** Messages *)
From Verif Require Import Messages SpecMessages SpecFiles FilesServe MessagesRule.
Lemma told_unseen e m : told e m -> match e with EvQueue _ | EvRequest _ _ | EvLog _ _ _ => True | _ => m = [] end.
Proof. intros H. destruct e; auto; inversion H; reflexivity. Qed.
Lemma tells_visible tr x : tells tr x -> tells (visible tr) x.
Proof.
  intros (mss & H & ->). induction H as [|e m tr mss He _ IH]; [exists []; split; constructor|].
  cbn [concat]. pose proof (told_unseen _ _ He) as K.
  destruct e; cbn [visible filter]; try (subst m; exact IH); destruct IH as (l & Hl & ->); exists (m :: l); (split; [constructor; assumption|reflexivity]).
Qed.
Lemma told_veiled public e e' m m' : veiled public e e' -> told e m -> told e' m' -> m = m'.
Proof.
  intros V H H'. destruct e, e'; cbn [veiled] in V; try discriminate V.
  all: try (inversion H; inversion H'; subst; congruence).
  destruct V as (_ & <- & <-).
  inversion H as [|? ? n Hn|? ? ? n k Hn Hk Hz|? Hno]; subst; [..|exfalso; eapply Hno; reflexivity];
    (inversion H' as [|? ? n' Hn'|? ? ? n' k' Hn' Hk' Hz'|? Hno']; subst; [..|exfalso; eapply Hno'; reflexivity]); try easy.
  - now rewrite (decimal_unique _ _ _ Hn Hn').
  - now rewrite (decimal_unique _ _ _ Hn Hn'), (decimal_unique _ _ _ Hk Hk').
Qed.
Lemma tells_veiled public l l' x x' : Forall2 (veiled public) l l' -> tells l x -> tells l' x' -> x = x'.
Proof.
  intros V (mss & H & ->) (mss' & H' & ->). revert mss mss' H H'.
  induction V as [|e e' l l' V _ IH]; intros mss mss' H H'; inversion H; inversion H'; subst; [reflexivity|]. cbn [concat].
  f_equal; [eapply told_veiled; eauto|eauto].
Qed.
