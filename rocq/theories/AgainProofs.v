(** Proofs about servers that are started again (C98). *)
From Verif Require Import Base BaseLemmas Huffman Http Conn Poller Server SpecServer ServerProofs ServerReach ServerAgain.

Section Orphans.
  Variable linux : bool.
  Variable listener : Z.
  Variable W : Type.
  Variable app : request -> W -> W * app_answer.
  Variable cs : bool.
  Variable T : tree.
  Notation server := (server W).
  Notation ker := (sv_kernel W).
  Notation pfds s := (p_fds (sv_poller W s)).
  (** A connection nobody looks at. *)
  Variable fd : Z.
  Variable e : entry.
  Variable why : Prop.
  Definition aside (k : kernel) : Prop := mget fd (k_open k) <> None /\ mget fd (k_watch k) = None.
  Definition orphan (s : server) : Prop :=
    (mget fd (sv_conns W s) = Some e /\ NoDup (map fst (sv_conns W s))) /\ mget fd (pfds s) = None /\ aside (ker s).
  Definition left_alone (s : server) : Prop := orphan s \/ (In e (sv_gone W s) /\ why).

  Lemma aside_new x k : x <> fd -> aside k -> aside (k_new x k).
  Proof. intros N [H1 H2]. split; cbn [k_new k_open k_watch]; [rewrite mget_mput; destruct (Z.eqb_spec fd x); congruence|exact H2]. Qed.
  Lemma aside_close x k : x <> fd -> aside k -> aside (k_close x k).
  Proof.
    intros N [H1 H2]. unfold k_close. destruct (mget x (k_open k)); split; cbn [k_open k_watch]; auto; rewrite mget_mdel; destruct (Z.eqb_spec fd x); congruence.
  Qed.
  Lemma aside_ctl ok op x m k : op = CtlDel \/ x <> fd -> aside k -> aside (snd (epoll_ctl ok op x m k)).
  Proof.
    intros N [H1 H2]. unfold epoll_ctl. destruct (mhas x (k_open k)); cbn [negb]; [|now split].
    destruct op, (mhas x (k_watch k)); try (now split); try (destruct ok; [|now split]); split; cbn [snd k_open k_watch]; auto; rewrite ?mget_mput, ?mget_mdel; destruct (Z.eqb_spec fd x); auto; destruct N; congruence.
  Qed.
  Lemma left_set ok x ev s : x <> fd -> left_alone s -> left_alone (set linux W ok x ev s).
  Proof.
    intros N [(H1 & H2 & H3)|H]; [left|right; exact H]. unfold set, set_poller, poller_set, orphan. cbn [sv_conns sv_poller sv_kernel].
    assert (P : mget fd (mput x ev (pfds s)) = None) by (rewrite mget_mput; destruct (Z.eqb_spec fd x); congruence).
    destruct linux; [|auto]. set (op := if mhas x (pfds s) then CtlMod else CtlAdd). pose proof (aside_ctl ok op x (to_epoll_events ev) (ker s) (or_intror N) H3) as K.
    destruct (epoll_ctl ok op x (to_epoll_events ev) (ker s)) as [[] k]; cbn [fst snd p_fds] in *; auto.
  Qed.
  Lemma left_remove x s : left_alone s -> left_alone (remove linux W x s).
  Proof.
    intros [(H1 & H2 & H3)|H]; [left|right; exact H]. unfold remove, set_poller, poller_remove, orphan. cbn [sv_conns sv_poller sv_kernel fst snd p_fds].
    split; [exact H1|]. split; [rewrite mget_mdel; now destruct (fd =? x)|]. destruct linux; [|exact H3]. apply aside_ctl; auto.
  Qed.
  Lemma left_erase x s : (x = fd -> why) -> left_alone s -> left_alone (erase W x s).
  Proof.
    intros Hw H. unfold erase. destruct (mget x (sv_conns W s)) as [e'|] eqn:E; [|exact H]. destruct H as [((H0 & H1) & H2 & H3)|[H Hy]].
    - destruct (Z.eq_dec x fd) as [->|N].
      + right. split; [|auto]. cbn [sv_gone]. rewrite H0 in E. injection E as <-. apply in_or_app. right. now left.
      + left. unfold orphan. cbn [sv_conns sv_poller sv_kernel]. split; [split; [rewrite mget_mdel; destruct (Z.eqb_spec fd x); congruence|now apply mdel_nodup]|].
        split; [exact H2|now apply aside_close].
    - right. split; [|exact Hy]. cbn [sv_gone]. apply in_or_app. now left.
  Qed.
  Lemma left_conns x v s : x <> fd -> left_alone s -> left_alone (set_conns W (mput x v (sv_conns W s)) s).
  Proof.
    intros N [((H0 & H1) & H2 & H3)|H]; [left|right; exact H]. split; [|now split]. cbn [set_conns sv_conns].
    split; [rewrite mget_mput; destruct (Z.eqb_spec fd x); congruence|now apply mput_nodup].
  Qed.
  Lemma left_kernel k s : left_alone s -> (aside (ker s) -> aside k) -> left_alone (set_kernel W k s).
  Proof. intros [(H1 & H2 & H3)|H] K; [left; split; [exact H1|split; [exact H2|now apply K]]|right; exact H]. Qed.
  Lemma left_world w s : left_alone s -> left_alone (set_world W w s).
  Proof. intros [H|H]; [left|right]; exact H. Qed.

  Lemma left_reap clock l : forall s, (forall e', In (fd, e') l -> has_timed_out (clock fd) (e_conn e') = true -> why) ->
    left_alone s -> left_alone (reap linux W clock l s).
  Proof.
    induction l as [|[x e'] l IH]; intros s Hy H; cbn [reap]; [exact H|]. apply IH; [intros y Hi; apply Hy; now right|].
    destruct (has_timed_out (clock x) (e_conn e')) eqn:E; [|exact H]. apply left_erase; [|now apply left_remove]. intros ->. exact (Hy e' (or_introl eq_refl) E).
  Qed.
  (** While it is there, its descriptor is in use, so it does not appear anew. *)
  Lemma left_incoming a s s' : left_alone s -> handle_incoming_connection linux W a s = Ret s' -> left_alone s'.
  Proof.
    intros H E. apply (incoming_cases linux W app (sv_world W s)) in E as [->|[(x & _ & Hn & _ & ->)|(x & _ & Hn & _ & ->)]]; [exact H| |].
    - destruct H as [H|H]; [|now right]. assert (N : x <> fd) by (intros ->; destruct H as (_ & _ & H & _); congruence).
      apply left_kernel; [now left|]. intros K. now apply aside_close, aside_new.
    - destruct H as [H|H].
      + assert (N : x <> fd) by (intros ->; destruct H as (_ & _ & H & _); congruence).
        apply left_set; [exact N|]. apply left_conns with (s := set_kernel W (k_new x (ker s)) s); [exact N|]. apply left_kernel; [now left|]. now apply aside_new.
      + right. exact H.
  Qed.
  Lemma left_events x ev a s s' : x <> fd -> left_alone s -> handle_connection_events linux W app cs T x ev a s = Ret s' -> left_alone s'.
  Proof.
    intros N H E. apply events_cases in E as [->|(e' & _ & [->|(s1 & r & c & tr & w & H1 & _ & ->)])]; [exact H|apply left_remove, left_erase; [easy|exact H]|].
    assert (Hs : left_alone s1) by (destruct H1 as [->| ->]; [exact H|now apply left_set]). cbv zeta.
    pose proof (left_world w _ (left_conns x (Entry (e_socket e') (e_born e') c (Some r) (e_trace e' ++ tr)) s1 N Hs)) as K.
    destruct r; [exact K|now apply left_set|apply left_erase; [easy|now apply left_remove]].
  Qed.
  Lemma left_handle evs : forall s s', fd <> listener -> ~ In fd (map fst evs) -> left_alone s -> handle_events linux listener W app cs T evs s = Ret s' -> left_alone s'.
  Proof.
    induction evs as [|[x [m a]] evs IH]; intros s s' Hl Hn H E; cbn [handle_events] in E; [now injection E as <-|]. cbn [map fst In] in Hn.
    destruct (if x =? listener then _ else _) as [s1| | |] eqn:E1; try discriminate. cbn [obind] in E. eapply IH; [exact Hl| | |exact E]; [tauto|].
    destruct (Z.eqb_spec x listener); [eapply left_incoming; eauto|]. eapply left_events; [|exact H|exact E1]. intros ->. tauto.
  Qed.
  Lemma gone_erase x s : In e (sv_gone W s) -> In e (sv_gone W (erase W x s)).
  Proof. intros H. unfold erase. destruct (mget x (sv_conns W s)); [|exact H]. cbn [sv_gone]. apply in_or_app. now left. Qed.
  Lemma gone_handle evs : forall s s', In e (sv_gone W s) -> handle_events linux listener W app cs T evs s = Ret s' -> In e (sv_gone W s').
  Proof.
    induction evs as [|[x [m a]] evs IH]; intros s s' H E; cbn [handle_events] in E; [now injection E as <-|].
    destruct (if x =? listener then _ else _) as [s1| | |] eqn:E1; try discriminate. cbn [obind] in E. eapply IH; [|exact E].
    destruct (Z.eqb_spec x listener).
    - apply (incoming_cases linux W app (sv_world W s)) in E1 as [->|[(y & _ & _ & _ & ->)|(y & _ & _ & _ & ->)]]; exact H.
    - apply events_cases in E1 as [->|(e' & _ & [->|(s2 & r & c & tr & w & H1 & _ & ->)])]; [exact H|now apply gone_erase|].
      assert (Hs : In e (sv_gone W s2)) by (destruct H1 as [->| ->]; exact H). cbv zeta. destruct r; [exact Hs|exact Hs|apply gone_erase; exact Hs].
  Qed.
  Lemma left_poll (r : wait_result (Z * surroundings)) s events p : poller_poll linux r (sv_poller W s) (ker s) = (events, p) ->
    p_fds p = pfds s /\ (orphan s -> forall evs, events = Val evs -> ~ In fd (map fst evs)).
  Proof.
    unfold poller_poll. destruct r as [|x|raw]; try (intros [= <- <-]; split; [reflexivity|discriminate]).
    destruct (k_wait linux (sv_poller W s) (ker s) raw) as [|y ys] eqn:Ew; [intros [= <- <-]; split; [reflexivity|discriminate]|]. rewrite <- Ew. intros [= <- <-].
    split; [destruct (linux && _); reflexivity|]. intros (_ & H2 & _ & H3) evs [= <-] K. rewrite map_map in K. cbn [fst] in K.
    assert (D : forall (l : list (Z * (Z * surroundings))) seen x, In x (map fst (distinct seen l)) -> In x (map fst l)).
    { induction l as [|[z v] l IH]; intros seen x Hx; cbn [distinct map fst] in *; [exact Hx|]. destruct (existsb (Z.eqb z) seen); [right; eauto|]. destruct Hx as [Hx|Hx]; [now left|right; eauto]. }
    assert (F : forall (P : Z -> bool) (l : list (Z * (Z * surroundings))) x, In x (map fst (filter (fun x => P (fst x)) l)) -> P x = true).
    { intros P l x Hx. apply in_map_iff in Hx as (y' & <- & Hy). now apply filter_In in Hy as [_ Hy]. }
    unfold k_wait in K. destruct linux.
    - apply in_map_iff in K as (y' & E & K). apply firstn_in in K. assert (K' : In fd (map fst (distinct [] (filter (fun x => mhas (fst x) (k_watch (ker s))) raw)))) by (apply in_map_iff; eauto).
      apply D in K'. apply (F (fun x => mhas x (k_watch (ker s)))) in K'. unfold mhas in K'. now rewrite H3 in K'.
    - apply D in K. apply (F (fun x => mhas x (pfds s))) in K. unfold mhas in K. now rewrite H2 in K.
  Qed.
  Lemma left_stops l : forall s, left_alone s -> left_alone (fold_left (fun s r => stop W r s) l s).
  Proof. induction l as [|r l IH]; intros s H; [exact H|]. cbn [fold_left]. now apply IH. Qed.
  Lemma left_iterate it s s' : fd <> listener -> (has_timed_out (it_clock it fd) (e_conn e) = true -> why) ->
    left_alone s -> iterate linux listener W app cs T it s = Ret s' -> left_alone s'.
  Proof.
    intros Hl Hy H E. unfold iterate in E.
    assert (H1 : left_alone (reap_idle_connections linux W (it_clock it) s)).
    { apply left_reap; [|exact H]. intros e' Hi Ht. destruct H as [((H0 & Hd) & _)|[_ H]]; [|exact H]. apply Hy. apply (mget_entry _ Hd) in Hi. congruence. }
    revert E. set (s1 := reap_idle_connections linux W (it_clock it) s) in *.
    destruct (poller_poll linux (it_wait it) (sv_poller W s1) (ker s1)) as [events p] eqn:Ep. destruct (left_poll _ _ _ _ Ep) as [P1 P2].
    assert (H2 : left_alone (set_poller W (p, ker s1) s1)).
    { destruct H1 as [(Ha & Hb & Hc)|H1]; [left|right; exact H1]. split; [exact Ha|]. split; [|exact Hc]. cbn [set_poller sv_poller fst]. now rewrite P1. }
    destruct events as [evs|x].
    - destruct (handle_events linux listener W app cs T evs (set_poller W (p, ker s1) s1)) as [s2| | |] eqn:Eh; try discriminate. cbn [obind]. intros [= <-]. apply left_stops.
      destruct H1 as [H1|H1]; [exact (left_handle evs _ _ Hl (P2 H1 evs eq_refl) H2 Eh)|]. right. split; [|apply H1]. refine (gone_handle evs _ _ _ Eh). exact (proj1 H1).
    - cbn [obind]. intros [= <-]. now apply left_stops.
  Qed.
  Lemma left_loop its : forall s b s', fd <> listener -> (forall it, In it its -> has_timed_out (it_clock it fd) (e_conn e) = true -> why) ->
    left_alone s -> loop linux listener W app cs T its s = Ret (b, s') -> left_alone s'.
  Proof.
    induction its as [|it its IH]; intros s b s' Hl Hy H E; cbn [loop] in E; destruct (sv_stop W s); try (injection E as <- <-; exact H).
    destruct (iterate linux listener W app cs T it s) as [s1| | |] eqn:Ei; try discriminate. cbn [obind] in E. eapply IH; [exact Hl| | |exact E].
    - intros it' Hi. apply Hy. now right.
    - eapply left_iterate; [exact Hl| |exact H|exact Ei]. apply Hy. now left.
  Qed.
End Orphans.

Section Again.
  Variable linux : bool.
  Variable listener : Z.
  Variable W : Type.
  Variable app : request -> W -> W * app_answer.
  Variable cs : bool.
  Variable T : tree.

  (** Whatever a call of start leaves behind stays as it is in the next one until it times out. *)
  Lemma orphans before made ok s its b s' fd e :
    conn_at W s fd e -> NoDup (map fst (sv_conns W s)) -> fd <> before -> mget fd (k_open (sv_kernel W s)) <> None ->
    mget listener (k_open (sv_kernel W (finish W before s))) = None ->
    start_on linux W app cs T listener made ok (finish W before s) its = Ret (b, s') ->
    conn_at W s' fd e \/ (In e (sv_gone W s') /\ exists it, In it its /\ has_timed_out (it_clock it fd) (e_conn e) = true).
  Proof.
    intros Hc Hd Hb Ho Hn E. unfold start_on in E. destruct made; [|discriminate]. cbn [negb] in E.
    assert (Ha : aside fd (sv_kernel W (finish W before s))) by (cbn [finish sv_kernel]; apply aside_close; [congruence|split; [exact Ho|reflexivity]]).
    assert (Hl : fd <> listener) by (intros ->; destruct Ha as [Ha _]; congruence).
    enough (K : left_alone W fd e (exists it, In it its /\ has_timed_out (it_clock it fd) (e_conn e) = true) s') by (destruct K as [((K & _) & _)|K]; [now left|now right]).
    eapply (left_loop linux listener W app cs T); [exact Hl| | |exact E]; [intros it Hi Ht; now exists it|].
    apply left_set; [congruence|]. left. split; [now split|]. split; [reflexivity|]. cbn [sv_kernel]. apply aside_new; [congruence|exact Ha].
  Qed.

  (** The descriptors after a call of start: those of before it and the connections'. *)
  Lemma finish_open k0 w0 ok A pending s fd n : setting listener k0 -> reached linux listener W app cs T k0 w0 ok A pending s ->
    mget fd (k_open (sv_kernel W (finish W listener s))) = Some n <->
    mget fd (k_open k0) = Some n \/ exists e, conn_at W s fd e /\ e_socket e = n.
  Proof.
    intros [H1 H2] H. destruct (reached_good _ _ _ _ _ _ _ _ H1 H2 _ _ _ _ H) as (G & _). destruct (g_desc _ _ _ _ _ _ _ _ _ G) as [D1 D2].
    cbn [finish sv_kernel]. unfold k_close. cbn [k_open]. assert (E : mget listener (k_open (sv_kernel W s)) = Some (k_objects k0)) by (apply D2; auto).
    rewrite E. cbn [k_open]. rewrite mget_mdel. destruct (Z.eqb_spec fd listener) as [->|N].
    - split; [discriminate|]. intros [K|(e & K & _)]; [destruct H2; congruence|]. now apply D1 in K as (_ & K & _).
    - rewrite D2. split; [intros [K|[[K _]|K]]; auto; easy|intros [K|K]; auto].
  Qed.
  Lemma finish_closes k0 w0 ok A pending s : setting listener k0 -> reached linux listener W app cs T k0 w0 ok A pending s ->
    k_watch (sv_kernel W (finish W listener s)) = [] /\
    k_closed (sv_kernel W (finish W listener s)) = k_closed (sv_kernel W s) ++ [Some (k_objects k0)].
  Proof.
    intros [H1 H2] H. destruct (reached_good _ _ _ _ _ _ _ _ H1 H2 _ _ _ _ H) as (G & _). destruct (g_desc _ _ _ _ _ _ _ _ _ G) as [D1 D2].
    cbn [finish sv_kernel]. unfold k_close. cbn [k_open]. assert (E : mget listener (k_open (sv_kernel W s)) = Some (k_objects k0)) by (apply D2; auto).
    rewrite E. now split.
  Qed.
  Lemma finish_objects k0 w0 ok A pending s : setting listener k0 -> reached linux listener W app cs T k0 w0 ok A pending s ->
    (k_objects k0 <= k_objects (sv_kernel W (finish W listener s)))%nat.
  Proof.
    intros [H1 H2] H. destruct (reached_good _ _ _ _ _ _ _ _ H1 H2 _ _ _ _ H) as (G & _). pose proof (g_objects _ _ _ _ _ _ _ _ _ G).
    cbn [finish sv_kernel]. unfold k_close. cbn [k_open]; destruct (mget listener (k_open (sv_kernel W s))); cbn [k_objects]; lia.
  Qed.
  (** With no connection left it is as at first. *)
  Lemma finish_setting k0 w0 ok A pending s listener' : setting listener k0 -> reached linux listener W app cs T k0 w0 ok A pending s ->
    sv_conns W s = [] -> 0 <= listener' -> mget listener' (k_open (sv_kernel W (finish W listener s))) = None ->
    setting listener' (since_now (sv_kernel W (finish W listener s))).
  Proof.
    intros Hs H Hc Hl Hn. pose proof (fun fd n => finish_open k0 w0 ok A pending s fd n Hs H) as K. pose proof (finish_objects _ _ _ _ _ _ Hs H) as Ko.
    destruct (finish_closes _ _ _ _ _ _ Hs H) as [Kw _]. destruct Hs as [(I1 & I2 & I3 & I4) _].
    assert (K' : forall fd n, mget fd (k_open (sv_kernel W (finish W listener s))) = Some n -> mget fd (k_open k0) = Some n).
    { intros fd n E. apply K in E as [E|(e & E & _)]; [exact E|]. unfold conn_at in E. now rewrite Hc in E. }
    split; [|split; [exact Hl|exact Hn]]. unfold in_order, since_now. cbn [k_open k_watch k_objects k_closed]. split; [|split; [|now split]].
    - intros fd n E. apply K', I1 in E as [E1 E2]. split; [exact E1|lia].
    - intros fd fd' n E E'. apply K' in E, E'. eauto.
  Qed.
End Again.
