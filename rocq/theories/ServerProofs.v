(** Invariants of the server loop. *)
From Verif Require Import Base BaseLemmas Huffman Http Conn Poller Server SpecServer.

(** ** Maps *)
Section Map.
  Context {V : Type}.
  Implicit Types m : list (Z * V).
  Lemma mget_mdel k k' m : mget k (mdel k' m) = if k =? k' then None else mget k m.
  Proof.
    induction m as [|[k2 v] m IH]; cbn [mdel filter mget]; [now destruct (k =? k')|]. fold (mdel k' m).
    cbn [fst]. destruct (Z.eqb_spec k' k2); cbn [negb mget]; rewrite IH; destruct (Z.eqb_spec k k2), (Z.eqb_spec k k'); try reflexivity; lia.
  Qed.
  Lemma mget_mput k k' v m : mget k (mput k' v m) = if k =? k' then Some v else mget k m.
  Proof. unfold mput. cbn [mget]. rewrite mget_mdel. now destruct (k =? k'). Qed.
  Lemma mhas_true k m : mhas k m = true <-> mget k m <> None.
  Proof. unfold mhas. destruct (mget k m); split; congruence. Qed.
  Lemma mhas_false k m : mhas k m = false <-> mget k m = None.
  Proof. unfold mhas. destruct (mget k m); split; congruence. Qed.
  Lemma mget_in k m : mget k m <> None <-> In k (map fst m).
  Proof.
    induction m as [|[k' v] m IH]; cbn [mget map In fst]; [easy|]. destruct (Z.eqb_spec k k') as [->|N].
    - split; [now left|discriminate].
    - rewrite IH. split; [now right|]. intros [E|H]; [congruence|exact H].
  Qed.
  Lemma mget_entry m : NoDup (map fst m) -> forall k v, mget k m = Some v <-> In (k, v) m.
  Proof.
    induction m as [|[k' v'] m IH]; cbn [mget map In fst]; intros Hn k v; [easy|]. inversion Hn as [|x l Hn1 Hn2]; subst.
    destruct (Z.eqb_spec k k') as [->|N].
    - split; [intros [= ->]; now left|]. intros [[= ->]|H]; [reflexivity|]. exfalso. apply Hn1. apply in_map_iff. exists (k', v). auto.
    - rewrite IH by auto. split; [now right|]. intros [[= -> ->]|H]; [easy|exact H].
  Qed.
  Lemma mdel_keys k m x : In x (map fst (mdel k m)) <-> In x (map fst m) /\ x <> k.
  Proof.
    rewrite <- !mget_in, mget_mdel. destruct (Z.eqb_spec x k); tauto.
  Qed.
  Lemma mdel_nodup k m : NoDup (map fst m) -> NoDup (map fst (mdel k m)).
  Proof.
    induction m as [|[k' v] m IH]; cbn [mdel filter map fst]; intros H; [constructor|]. inversion H as [|x l H1 H2]; subst.
    fold (mdel k m). destruct (Z.eqb_spec k k') as [->|N]; cbn [negb]; [auto|]. cbn [map fst]. constructor; [|auto].
    rewrite mdel_keys. tauto.
  Qed.
  Lemma mput_nodup k v m : NoDup (map fst m) -> NoDup (map fst (mput k v m)).
  Proof. intros H. cbn [mput map fst]. constructor; [rewrite mdel_keys; tauto|now apply mdel_nodup]. Qed.
  Lemma mdel_absent k m : mget k m = None -> mdel k m = m.
  Proof.
    induction m as [|[k' v] m IH]; cbn [mdel filter mget fst]; [reflexivity|]. fold (mdel k m).
    destruct (Z.eqb_spec k k'); [discriminate|]. intros H. cbn [negb]. now rewrite IH.
  Qed.
  Lemma mdel_length k m : (length (mdel k m) <= length m)%nat.
  Proof. induction m as [|[k' v] m IH]; cbn [mdel filter]; [easy|]. fold (mdel k m). destruct (negb _); cbn [length]; lia. Qed.
  Lemma mdel_length_in k m : NoDup (map fst m) -> mget k m <> None -> S (length (mdel k m)) = length m.
  Proof.
    induction m as [|[k' v] m IH]; cbn [mdel filter mget fst map]; intros Hn H; [easy|]. inversion Hn as [|x l H1 H2]; subst. fold (mdel k m).
    destruct (Z.eqb_spec k k') as [->|N]; cbn [negb length]; [|now rewrite IH].
    rewrite mdel_absent; [reflexivity|]. destruct (mget k' m) eqn:E; [|reflexivity]. exfalso. apply H1, mget_in. congruence.
  Qed.
End Map.

(** ** Descriptions of the elementary steps *)
Section Steps.
  Variable linux : bool.
  Variable W : Type.
  Notation server := (server W).
  Notation conns s := (sv_conns W s).
  Notation pfds s := (p_fds (sv_poller W s)).
  Notation ker s := (sv_kernel W s).

  (** A connection is dropped. *)
  Record dropped (fd : Z) (e : entry) (s s' : server) : Prop := {
    dr_conns : conns s' = mdel fd (conns s);
    dr_stop : sv_stop W s' = sv_stop W s;
    dr_fds : pfds s' = mdel fd (pfds s);
    dr_size : p_size (sv_poller W s') = p_size (sv_poller W s);
    dr_world : sv_world W s' = sv_world W s;
    dr_gone : sv_gone W s' = sv_gone W s ++ [e];
    dr_open : k_open (ker s') = mdel fd (k_open (ker s));
    dr_watch : forall x, x <> fd -> mget x (k_watch (ker s')) = mget x (k_watch (ker s));
    dr_watch_fd : mget fd (k_watch (ker s')) = None;
    dr_objects : k_objects (ker s') = k_objects (ker s);
    dr_closed : k_closed (ker s') = k_closed (ker s) ++ [Some (e_socket e)] }.
  Lemma drop_remove_erase fd e s : mget fd (conns s) = Some e -> mget fd (k_open (ker s)) = Some (e_socket e) ->
    dropped fd e s (erase W fd (remove linux W fd s)).
  Proof.
    intros Hc Ho. unfold erase, remove, set_poller, poller_remove. cbn [sv_conns sv_poller sv_kernel sv_stop sv_world sv_gone fst snd]. rewrite Hc.
    assert (E : k_open (if linux then snd (epoll_ctl true CtlDel fd 0 (ker s)) else ker s) = k_open (ker s) /\
      k_objects (if linux then snd (epoll_ctl true CtlDel fd 0 (ker s)) else ker s) = k_objects (ker s) /\
      k_closed (if linux then snd (epoll_ctl true CtlDel fd 0 (ker s)) else ker s) = k_closed (ker s) /\
      forall x, x <> fd -> mget x (k_watch (if linux then snd (epoll_ctl true CtlDel fd 0 (ker s)) else ker s)) = mget x (k_watch (ker s))).
    { destruct linux; [|auto]. unfold epoll_ctl. destruct (mhas fd (k_open (ker s))), (mhas fd (k_watch (ker s))); cbn [negb snd k_open k_objects k_closed k_watch]; repeat split.
      intros x Hx. rewrite mget_mdel. now apply Z.eqb_neq in Hx; rewrite Hx. }
    destruct E as (E1 & E2 & E3 & E4). set (k := if linux then _ else _) in *. unfold k_close. rewrite E1, Ho.
    split; cbn [sv_conns sv_poller sv_kernel sv_stop sv_world sv_gone p_fds p_size k_open k_watch k_objects k_closed]; auto.
    - intros x Hx. rewrite mget_mdel. pose proof Hx as Hx'. apply Z.eqb_neq in Hx. rewrite Hx. auto.
    - now rewrite mget_mdel, Z.eqb_refl.
    - now rewrite E3.
  Qed.
  Lemma drop_erase_remove fd e s : mget fd (conns s) = Some e -> mget fd (k_open (ker s)) = Some (e_socket e) ->
    dropped fd e s (remove linux W fd (erase W fd s)).
  Proof.
    intros Hc Ho. unfold remove, poller_remove, set_poller, erase. rewrite Hc.
    cbn [sv_conns sv_poller sv_kernel sv_stop sv_world sv_gone fst snd]. unfold k_close. rewrite Ho.
    assert (E : epoll_ctl true CtlDel fd 0 (Kernel (mdel fd (k_open (ker s))) (mdel fd (k_watch (ker s))) (k_objects (ker s)) (k_closed (ker s) ++ [Some (e_socket e)])) =
      (false, Kernel (mdel fd (k_open (ker s))) (mdel fd (k_watch (ker s))) (k_objects (ker s)) (k_closed (ker s) ++ [Some (e_socket e)]))).
    { unfold epoll_ctl. cbn [k_open]. unfold mhas. now rewrite mget_mdel, Z.eqb_refl. }
    rewrite E. cbn [snd]. rewrite if_same || (destruct linux).
    all: split; cbn [sv_conns sv_poller sv_kernel sv_stop sv_world sv_gone p_fds p_size k_open k_watch k_objects k_closed]; auto.
    all: try (now rewrite mget_mdel, Z.eqb_refl).
    all: intros x Hx; rewrite mget_mdel; now apply Z.eqb_neq in Hx; rewrite Hx.
  Qed.

  (** The poller is told about a descriptor. *)
  Record told (fd ev : Z) (s s' : server) : Prop := {
    to_conns : conns s' = conns s;
    to_stop : sv_stop W s' = sv_stop W s;
    to_fds : pfds s' = mput fd ev (pfds s);
    to_size : p_size (sv_poller W s') = p_size (sv_poller W s);
    to_world : sv_world W s' = sv_world W s;
    to_gone : sv_gone W s' = sv_gone W s;
    to_open : k_open (ker s') = k_open (ker s);
    to_watch : linux = true -> k_watch (ker s') = mput fd (to_epoll_events ev) (k_watch (ker s));
    to_objects : k_objects (ker s') = k_objects (ker s);
    to_closed : k_closed (ker s') = k_closed (ker s) }.
  Lemma set_told ok fd ev s : mget fd (k_open (ker s)) <> None ->
    (linux = true -> mget fd (k_watch (ker s)) = option_map to_epoll_events (mget fd (pfds s))) ->
    (set linux W ok fd ev s = s /\ linux = true /\ ok = false) \/ told fd ev s (set linux W ok fd ev s).
  Proof.
    intros Ho Hw. unfold set, set_poller, poller_set. destruct linux eqn:El.
    - specialize (Hw eq_refl). unfold epoll_ctl. apply mhas_true in Ho. rewrite Ho. cbn [negb].
      assert (E : mhas fd (pfds s) = mhas fd (k_watch (ker s))) by (unfold mhas; rewrite Hw; now destruct (mget fd (pfds s))).
      rewrite E. destruct s as [cn st [pf ps] [ko kw kn kc] w gone]; cbn in *. destruct ok.
      + right. destruct (mhas fd kw); cbn; split; auto.
      + left. destruct (mhas fd kw); cbn; auto.
    - right. destruct s as [cn st [pf ps] [ko kw kn kc] w gone]; cbn in *. split; auto. congruence.
  Qed.
End Steps.

(** ** The invariant *)
Section Inv.
  Variable linux : bool.
  Variable listener : Z.
  Variable W : Type.
  Variable app : request -> W -> W * app_answer.
  Variable cs : bool.
  Variable T : tree.
  Variable k0 : kernel.
  Variable w0 : W.
  Hypothesis Hk0 : in_order k0.
  Hypothesis Hl0 : 0 <= listener /\ mget listener (k_open k0) = None.

  Notation server := (server W).
  Notation conns s := (sv_conns W s).
  Notation pfds s := (p_fds (sv_poller W s)).
  Notation ker s := (sv_kernel W s).

  Record good (s : server) : Prop := {
    g_desc : descriptors listener W k0 s;
    g_sock : sockets W k0 s;
    g_objects : (k_objects k0 < k_objects (ker s))%nat;
    g_stale : no_stale_interest linux listener W s;
    g_lives : lives W app cs T w0 s;
    g_limit : within_limits W s }.

  Lemma good_open s fd e : good s -> conn_at W s fd e -> mget fd (k_open (ker s)) = Some (e_socket e).
  Proof. intros H Hc. apply (g_desc s H). right. right. now exists e. Qed.
  Lemma own_others e w w' : own_life W app cs T w0 e w -> own_life W app cs T w0 e w'.
  Proof. intros H. eapply session_others; [exact H|exact I]. Qed.

  Lemma nodup_snoc {A} (l : list A) x : NoDup l -> ~ In x l -> NoDup (l ++ [x]).
  Proof.
    induction 1 as [|y l H _ IH]; intros N; [constructor; [easy|constructor]|]. cbn. constructor.
    - intros K. apply in_app_or in K as [K|[K|[]]]; [easy|]. subst. apply N. now left.
    - apply IH. intros K. apply N. now right.
  Qed.

  Lemma dropped_good fd e s s' : good s -> conn_at W s fd e -> dropped W fd e s s' -> good s'.
  Proof.
    intros H Hc D. assert (HC : forall x e', conn_at W s' x e' <-> conn_at W s x e' /\ x <> fd).
    { intros x e'. unfold conn_at. rewrite (dr_conns _ _ _ _ _ D), mget_mdel. destruct (Z.eqb_spec x fd); split; try easy; intros [? ?]; easy. }
    destruct (g_sock s H) as (S1 & S2 & S3 & S4 & S5 & S6). split.
    - destruct (g_desc s H) as [D1 D2]. split.
      + intros x e' Hx. apply HC in Hx as [Hx _]. eauto.
      + intros x n. rewrite (dr_open _ _ _ _ _ D), mget_mdel. destruct (Z.eqb_spec x fd) as [->|N].
        * split; [discriminate|]. intros [K|[[K _]|(e' & K & _)]].
          -- apply D1 in Hc as (_ & _ & K'). congruence.
          -- subst. now apply D1 in Hc as (_ & K & _).
          -- now apply HC in K as [_ K].
        * rewrite D2. split; (intros [K|[K|(e' & K & K')]]; [auto|auto|right; right; exists e']); [split; [apply HC; auto|auto]|split; [|auto]]. now apply HC in K as [K _].
    - split; [|split; [|split; [|split; [|split]]]].
      + intros n. unfold accepted. rewrite (dr_objects _ _ _ _ _ D), (dr_closed _ _ _ _ _ D). fold (accepted W k0 s n). rewrite S1, in_app_iff. cbn [In]. split.
        * intros [(x & e' & K & K')|K]; [|auto]. destruct (Z.eq_dec x fd) as [->|N].
          -- unfold conn_at in *. rewrite Hc in K. injection K as ->. right. right. left. congruence.
          -- left. exists x, e'. split; [apply HC; auto|auto].
        * intros [(x & e' & K & K')|[K|[K|[]]]]; [left|auto|left]; [apply HC in K as [K _]; eauto|]. injection K as <-. eauto.
      + intros x e' K. rewrite (dr_closed _ _ _ _ _ D), in_app_iff. apply HC in K as [K N]. intros [K'|[K'|[]]]; [now apply S2 in K|].
        injection K' as K'. apply N. eauto.
      + intros x e1 x' e2 K K'. apply HC in K as [K _]. apply HC in K' as [K' _]. eauto.
      + rewrite (dr_closed _ _ _ _ _ D). apply nodup_snoc; [exact S4|]. eauto.
      + rewrite (dr_closed _ _ _ _ _ D), in_app_iff. intros [K|[K|[]]]; [easy|discriminate].
      + rewrite (dr_gone _ _ _ _ _ D), (dr_closed _ _ _ _ _ D). apply Forall_app. split; [|constructor; [|constructor]].
        * eapply Forall_impl; [|exact S6]. intros a K. apply in_or_app. now left.
        * apply in_or_app. right. now left.
    - rewrite (dr_objects _ _ _ _ _ D). exact (g_objects s H).
    - destruct (g_stale s H) as [P1 P2]. split.
      + intros x v. rewrite (dr_fds _ _ _ _ _ D), mget_mdel. destruct (Z.eqb_spec x fd) as [->|N]; [discriminate|]. intros K.
        apply P1 in K as [K|[e' K]]; [auto|right]. exists e'. apply HC. auto.
      + intros Hl x. rewrite (dr_fds _ _ _ _ _ D), mget_mdel. destruct (Z.eqb_spec x fd) as [->|N]; [exact (dr_watch_fd _ _ _ _ _ D)|].
        rewrite (dr_watch _ _ _ _ _ D) by auto. auto.
    - destruct (g_lives s H) as [L1 L2]. split.
      + intros x e' K. apply HC in K as [K _]. eapply own_others; eauto.
      + rewrite (dr_gone _ _ _ _ _ D). apply Forall_app. split; [|constructor; [|constructor]].
        * eapply Forall_impl; [|exact L2]. intros a. apply own_others.
        * eapply own_others; eauto.
    - destruct (g_limit s H) as (M1 & M2 & M3). unfold within_limits. rewrite (dr_conns _ _ _ _ _ D), (dr_size _ _ _ _ _ D).
      split; [|split; [now apply mdel_nodup|auto]]. pose proof (mdel_length fd (conns s)). unfold lenZ in *. lia.
  Qed.

  Lemma told_good fd ev s s' : good s -> (fd = listener \/ exists e, conn_at W s fd e) -> told linux W fd ev s s' -> good s'.
  Proof.
    intros H Hf D. assert (HC : forall x e, conn_at W s' x e <-> conn_at W s x e) by (intros x e; unfold conn_at; now rewrite (to_conns _ _ _ _ _ _ D)).
    destruct (g_sock s H) as (S1 & S2 & S3 & S4 & S5 & S6). split.
    - destruct (g_desc s H) as [D1 D2]. split.
      + intros x e K. apply HC in K. eauto.
      + intros x n. rewrite (to_open _ _ _ _ _ _ D), D2. split; (intros [K|[K|(e' & K & K')]]; [auto|auto|right; right; exists e'; split; [now apply HC|auto]]).
    - unfold sockets, accepted. rewrite (to_closed _ _ _ _ _ _ D), (to_objects _ _ _ _ _ _ D), (to_gone _ _ _ _ _ _ D). unfold conn_at. rewrite (to_conns _ _ _ _ _ _ D). exact (g_sock s H).
    - rewrite (to_objects _ _ _ _ _ _ D). exact (g_objects s H).
    - destruct (g_stale s H) as [P1 P2]. split.
      + intros x v. rewrite (to_fds _ _ _ _ _ _ D), mget_mput. destruct (Z.eqb_spec x fd) as [->|N].
        * intros _. destruct Hf as [Hf|[e Hf]]; [auto|right; exists e; now apply HC].
        * intros K. apply P1 in K as [K|[e' K]]; [auto|right; exists e'; now apply HC].
      + intros Hl x. rewrite (to_watch _ _ _ _ _ _ D Hl), (to_fds _ _ _ _ _ _ D), !mget_mput. destruct (x =? fd); [reflexivity|auto].
    - unfold lives, conn_at. rewrite (to_conns _ _ _ _ _ _ D), (to_world _ _ _ _ _ _ D), (to_gone _ _ _ _ _ _ D). exact (g_lives s H).
    - unfold within_limits. rewrite (to_conns _ _ _ _ _ _ D), (to_size _ _ _ _ _ _ D). exact (g_limit s H).
  Qed.
  Lemma set_good ok fd ev s : good s -> (fd = listener \/ exists e, conn_at W s fd e) -> good (set linux W ok fd ev s).
  Proof.
    intros H Hf. destruct (set_told linux W ok fd ev s) as [(-> & _)|D]; [| |exact H|exact (told_good _ _ _ _ H Hf D)].
    - assert (K : exists n, mget fd (k_open (ker s)) = Some n).
      { destruct Hf as [->|[e Hf]]; [exists (k_objects k0)|exists (e_socket e)]; apply (g_desc s H); [auto|right; right; now exists e]. }
      destruct K as [n K]. congruence.
    - intros Hl. apply (g_stale s H). exact Hl.
  Qed.

  (** A new connection. *)
  Lemma added_good fd t s : good s -> 0 <= fd -> mget fd (k_open (ker s)) = None -> lenZ (conns s) < 128 ->
    good (set_conns W (mput fd (Entry (k_objects (ker s)) t (fresh_conn t) None []) (conns s)) (set_kernel W (k_new fd (ker s)) s)).
  Proof.
    intros H Hf Ho Hl. set (e := Entry _ _ _ _ _). set (s' := set_conns _ _ _).
    assert (Hn : mget fd (conns s) = None).
    { destruct (mget fd (conns s)) as [e'|] eqn:E; [|reflexivity]. apply (good_open s fd e' H) in E. congruence. }
    assert (HC : forall x e', conn_at W s' x e' <-> (x = fd /\ e' = e) \/ (x <> fd /\ conn_at W s x e')).
    { intros x e'. unfold conn_at, s'. cbn [set_conns sv_conns]. rewrite mget_mput. destruct (Z.eqb_spec x fd); split; try tauto.
      - intros [= <-]. auto.
      - intros [[_ ->]|[? _]]; [reflexivity|easy]. }
    assert (HO : forall x, mget x (k_open (ker s')) = if x =? fd then Some (k_objects (ker s)) else mget x (k_open (ker s))).
    { intros x. exact (mget_mput x fd _ _). }
    destruct (g_sock s H) as (S1 & S2 & S3 & S4 & S5 & S6). destruct (g_desc s H) as [D1 D2].
    assert (HA : forall n, (exists fd e, conn_at W s fd e /\ e_socket e = n) \/ In (Some n) (k_closed (ker s)) -> (n < k_objects (ker s))%nat).
    { intros n K. apply S1 in K. unfold accepted in K. lia. }
    split.
    - split.
      + intros x e' K. apply HC in K as [[-> _]|[_ K]]; [|eauto]. split; [exact Hf|]. split.
        * intros ->. assert (mget listener (k_open (ker s)) = Some (k_objects k0)) by (apply D2; auto). congruence.
        * destruct (mget fd (k_open k0)) eqn:E; [|reflexivity]. assert (mget fd (k_open (ker s)) = Some n) by (apply D2; auto). congruence.
      + intros x n. rewrite HO. destruct (Z.eqb_spec x fd) as [->|N].
        * split.
          -- intros [= <-]. right. right. exists e. split; [apply HC; auto|reflexivity].
          -- intros [K|[K|(e' & K & K')]].
             ++ assert (mget fd (k_open (ker s)) = Some n) by (apply D2; auto). congruence.
             ++ assert (mget fd (k_open (ker s)) = Some n) by (apply D2; auto). congruence.
             ++ apply HC in K as [[_ ->]|[K _]]; [|easy]. now rewrite <- K'.
        * rewrite D2. split; (intros [K|[K|(e' & K & K')]]; [auto|auto|right; right; exists e'; split; [|auto]]).
          -- apply HC. auto.
          -- apply HC in K as [[K _]|[_ K]]; [easy|exact K].
    - split; [|split; [|split; [|split; [exact S4|split; [exact S5|exact S6]]]]].
      + intros n. unfold accepted. change (k_objects (ker s')) with (S (k_objects (ker s))). change (k_closed (ker s')) with (k_closed (ker s)).
        pose proof (g_objects s H) as G. split.
        * intros Hr. destruct (Nat.eq_dec n (k_objects (ker s))) as [->|N].
          -- left. exists fd, e. split; [apply HC; auto|reflexivity].
          -- assert (K : accepted W k0 s n) by (unfold accepted; lia). apply S1 in K as [(x & e' & K & K')|K]; [left|auto].
             exists x, e'. split; [|exact K']. apply HC. right. split; [|exact K]. intros ->. unfold conn_at in K. congruence.
        * intros [(x & e' & K & K')|K].
          -- apply HC in K as [[-> ->]|[_ K]]; [cbn [e e_socket] in K'; lia|]. assert (K2 : accepted W k0 s n) by (apply S1; eauto). unfold accepted in K2. lia.
          -- assert (K2 : accepted W k0 s n) by (apply S1; auto). unfold accepted in K2. lia.
      + intros x e' K. apply HC in K as [[-> ->]|[_ K]]; [|exact (S2 x e' K)]. change (k_closed (ker s')) with (k_closed (ker s)). cbn [e e_socket]. intros K.
        apply (fun x => HA _ (or_intror x)) in K. lia.
      + intros x e1 x' e2 K K' E. apply HC in K as [[-> ->]|[_ K]]; apply HC in K' as [[-> ->]|[_ K']]; eauto; cbn [e e_socket] in E; exfalso.
        * assert (Q : (e_socket e2 < k_objects (ker s))%nat) by (apply HA; left; eauto). lia.
        * assert (Q : (e_socket e1 < k_objects (ker s))%nat) by (apply HA; left; eauto). lia.
    - change (k_objects (ker s')) with (S (k_objects (ker s))). pose proof (g_objects s H). lia.
    - destruct (g_stale s H) as [P1 P2]. split; [|exact P2]. intros x v K. apply P1 in K as [K|[e' K]]; [auto|right]. exists e'. apply HC. right.
      split; [|exact K]. intros ->. unfold conn_at in K. congruence.
    - destruct (g_lives s H) as [L1 L2]. split; [|exact L2]. intros x e' K. apply HC in K as [[-> ->]|[_ K]]; [|exact (L1 x e' K)].
      unfold own_life, e. cbn [e_born e_result e_conn e_trace]. eapply session_others; [apply session_start|exact I].
    - destruct (g_limit s H) as (M1 & M2 & M3). split; [|split; [now apply mput_nodup|exact M3]].
      unfold s'. cbn [set_conns sv_conns]. unfold mput. rewrite mdel_absent by exact Hn. unfold lenZ in *. cbn [length]. lia.
  Qed.
  (** A socket that is closed at once. *)
  Lemma overflow_good fd s : good s -> mget fd (k_open (ker s)) = None ->
    good (set_kernel W (k_close fd (k_new fd (ker s))) s).
  Proof.
    intros H Ho. set (k' := k_close fd (k_new fd (ker s))).
    assert (E : k_open k' = mdel fd (mput fd (k_objects (ker s)) (k_open (ker s))) /\ k_objects k' = S (k_objects (ker s)) /\
      k_closed k' = k_closed (ker s) ++ [Some (k_objects (ker s))] /\ k_watch k' = mdel fd (k_watch (ker s))).
    { unfold k', k_close. cbn [k_new k_open]. rewrite mget_mput, Z.eqb_refl. auto. }
    destruct E as (E1 & E2 & E3 & E4). clearbody k'.
    destruct (g_sock s H) as (S1 & S2 & S3 & S4 & S5 & S6). destruct (g_desc s H) as [D1 D2].
    assert (HA : forall n, (exists fd e, conn_at W s fd e /\ e_socket e = n) \/ In (Some n) (k_closed (ker s)) -> (n < k_objects (ker s))%nat).
    { intros n K. apply S1 in K. unfold accepted in K. lia. }
    split.
    - split; [exact D1|]. intros x n. cbn [set_kernel sv_kernel]. rewrite E1, mget_mdel, mget_mput. rewrite <- (D2 x n). destruct (Z.eqb_spec x fd) as [->|N]; [|reflexivity].
      rewrite Ho. easy.
    - unfold sockets, accepted. cbn [set_kernel sv_kernel sv_gone]. rewrite E2, E3. pose proof (g_objects s H) as G.
      split; [|split; [|split; [exact S3|split; [|split]]]].
      + intros n. rewrite in_app_iff. cbn [In]. split.
        * intros Hr. destruct (Nat.eq_dec n (k_objects (ker s))) as [->|N]; [auto|].
          assert (K : accepted W k0 s n) by (unfold accepted; lia). apply S1 in K as [K|K]; [left; exact K|auto].
        * intros [K|[K|[K|[]]]]; [| |injection K as <-; lia].
          -- assert (K2 : accepted W k0 s n) by (apply S1; left; exact K). unfold accepted in K2. lia.
          -- assert (K2 : accepted W k0 s n) by (apply S1; auto). unfold accepted in K2. lia.
      + intros x e K. rewrite in_app_iff. intros [K'|[K'|[]]]; [exact (S2 x e K K')|]. injection K' as K'.
        assert (Q : (e_socket e < k_objects (ker s))%nat) by (apply HA; left; exists x, e; auto). lia.
      + apply nodup_snoc; [exact S4|]. intros K. apply (fun x => HA _ (or_intror x)) in K. lia.
      + rewrite in_app_iff. intros [K|[K|[]]]; [easy|discriminate].
      + eapply Forall_impl; [|exact S6]. intros a K. apply in_or_app. now left.
    - cbn [set_kernel sv_kernel]. rewrite E2. pose proof (g_objects s H). lia.
    - destruct (g_stale s H) as [P1 P2]. split; [exact P1|]. intros Hl x. cbn [set_kernel sv_kernel sv_poller]. rewrite E4, mget_mdel.
      destruct (Z.eqb_spec x fd) as [->|N]; [|auto]. destruct (mget fd (pfds s)) as [v|] eqn:Ev; [|reflexivity]. exfalso.
      assert (K : exists n, mget fd (k_open (ker s)) = Some n).
      { apply P1 in Ev as [->|[e Ev]]; [exists (k_objects k0); apply D2; auto|]. exists (e_socket e). now apply good_open. }
      destruct K. congruence.
    - exact (g_lives s H).
    - exact (g_limit s H).
  Qed.
  (** A connection is processed. *)
  Lemma updated_good fd e e' w s : good s -> conn_at W s fd e -> e_socket e' = e_socket e -> own_life W app cs T w0 e' w ->
    good (set_world W w (set_conns W (mput fd e' (conns s)) s)).
  Proof.
    intros H Hc Hs Hl. set (s' := set_world _ _ _).
    assert (HC : forall x e2, conn_at W s' x e2 <-> (x = fd /\ e2 = e') \/ (x <> fd /\ conn_at W s x e2)).
    { intros x e2. unfold conn_at, s'. cbn [set_world set_conns sv_conns]. rewrite mget_mput. destruct (Z.eqb_spec x fd); split; try tauto.
      - intros [= <-]. auto.
      - intros [[_ ->]|[? _]]; [reflexivity|easy]. }
    assert (HX : forall x n, (exists e2, conn_at W s' x e2 /\ e_socket e2 = n) <-> (exists e2, conn_at W s x e2 /\ e_socket e2 = n)).
    { intros x n. split; intros (e2 & K & K').
      - apply HC in K as [[-> ->]|[_ K]]; [exists e; split; [exact Hc|congruence]|eauto].
      - destruct (Z.eq_dec x fd) as [->|N]; [|exists e2; split; [apply HC; auto|auto]]. exists e'. split; [apply HC; auto|].
        unfold conn_at in *. congruence. }
    destruct (g_sock s H) as (S1 & S2 & S3 & S4 & S5 & S6). destruct (g_desc s H) as [D1 D2]. split.
    - split.
      + intros x e2 K. apply HC in K as [[-> _]|[_ K]]; eauto.
      + intros x n. change (ker s') with (ker s). rewrite D2, HX. reflexivity.
    - unfold sockets, accepted. change (ker s') with (ker s). change (sv_gone W s') with (sv_gone W s).
      split; [|split; [|split; [|auto]]].
      + intros n. fold (accepted W k0 s n). rewrite S1. split; (intros [[x K]|K]; [left; exists x; now apply HX|auto]).
      + intros x e2 K. apply HC in K as [[-> ->]|[_ K]]; [rewrite Hs|]; eauto.
      + intros x e1 x' e2 K K' E.
        assert (K1 : exists a, conn_at W s x a /\ e_socket a = e_socket e1) by (apply HX; eauto).
        assert (K2 : exists a, conn_at W s x' a /\ e_socket a = e_socket e2) by (apply HX; eauto).
        destruct K1 as (a1 & K1 & Q1), K2 as (a2 & K2 & Q2). apply (S3 x a1 x' a2 K1 K2). congruence.
    - exact (g_objects s H).
    - destruct (g_stale s H) as [P1 P2]. split; [|exact P2]. intros x v K. apply P1 in K as [K|[e2 K]]; [auto|right].
      assert (K' : exists a, conn_at W s' x a /\ e_socket a = e_socket e2) by (apply HX; eauto). destruct K' as (a & K' & _). eauto.
    - destruct (g_lives s H) as [L1 L2]. split.
      + intros x e2 K. apply HC in K as [[-> ->]|[_ K]]; [exact Hl|]. exact (own_others _ _ _ (L1 x e2 K)).
      + eapply Forall_impl; [|exact L2]. intros a. apply own_others.
    - destruct (g_limit s H) as (M1 & M2 & M3). split; [|split; [now apply mput_nodup|exact M3]].
      unfold s'. cbn [set_world set_conns sv_conns]. unfold mput. unfold lenZ in *. cbn [length].
      rewrite (mdel_length_in fd (conns s)); [lia|exact M2|]. unfold conn_at in Hc. congruence.
  Qed.

  (** ** The functions *)
  Lemma objects_pred n : (S n - 1)%nat = n.
  Proof. lia. Qed.
  Lemma try_accept_cases a k fd k' : try_accept a k = Ret (fd, k') ->
    (fd = None /\ k' = k) \/ (exists x, fd = Some x /\ 0 <= x /\ mget x (k_open k) = None /\ k' = k_new x k).
  Proof.
    unfold try_accept. destruct (ar_accept a) as [x nb| |]; [|intros [= <- <-]; auto|discriminate].
    destruct (Z.ltb_spec x 0); cbn [orb]; [intros [= <- <-]; auto|]. destruct (mhas x (k_open k)) eqn:E; [intros [= <- <-]; auto|].
    apply mhas_false in E. destruct nb; [|discriminate]. intros [= <- <-]. right. exists x. auto.
  Qed.
  Lemma set_kernel_same s : set_kernel W (ker s) s = s.
  Proof. now destruct s. Qed.

  (** What an incoming connection does. *)
  Lemma incoming_cases a s s' : handle_incoming_connection linux W a s = Ret s' ->
    s' = s \/
    (exists fd, 0 <= fd /\ mget fd (k_open (ker s)) = None /\ 128 <= lenZ (conns s) /\
       s' = set_kernel W (k_close fd (k_new fd (ker s))) s) \/
    (exists fd, 0 <= fd /\ mget fd (k_open (ker s)) = None /\ lenZ (conns s) < 128 /\
       s' = set linux W (ctl_ok 0 a) fd PRead
              (set_conns W (mput fd (Entry (k_objects (ker s)) (ar_now a) (fresh_conn (ar_now a)) None []) (conns s))
                 (set_kernel W (k_new fd (ker s)) s))).
  Proof.
    unfold handle_incoming_connection, establish_conn, MAX_CONNECTIONS. rewrite Z.geb_leb. destruct (Z.leb_spec 128 (lenZ (conns s))) as [Hl|Hl]; cbn [negb].
    - destruct (try_accept a (ker s)) as [[fd k']| | |] eqn:E; try discriminate. cbn [obind].
      apply try_accept_cases in E as [(-> & ->)|(x & -> & H1 & H2 & ->)]; intros [= <-].
      + left. apply set_kernel_same.
      + right. left. exists x. auto.
    - destruct (try_accept a (ker s)) as [[fd k']| | |] eqn:E; try discriminate. cbn [obind].
      apply try_accept_cases in E as [(-> & ->)|(x & -> & H1 & H2 & ->)].
      + intros [= <-]. left. apply set_kernel_same.
      + destruct (ar_transport a); cbn [negb]; [|discriminate]. cbn [set_kernel sv_kernel k_new k_objects]. rewrite objects_pred.
        intros [= <-]. right. right. exists x. auto.
  Qed.
  Lemma incoming_good a s s' : good s -> handle_incoming_connection linux W a s = Ret s' -> good s'.
  Proof.
    intros H E. apply incoming_cases in E as [->|[(fd & H1 & H2 & H3 & ->)|(fd & H1 & H2 & H3 & ->)]]; [exact H|now apply overflow_good|].
    apply set_good; [now apply added_good|]. right. eexists. unfold conn_at. cbn [set_conns sv_conns]. rewrite mget_mput, Z.eqb_refl. reflexivity.
  Qed.

  (** What the events of a connection do. *)
  Lemma events_cases fd ev a s s' : handle_connection_events linux W app cs T fd ev a s = Ret s' ->
    s' = s \/
    exists e, conn_at W s fd e /\
      (s' = remove linux W fd (erase W fd s) \/
       exists s1 r c tr w, (s1 = s \/ s1 = set linux W (ctl_ok 0 a) fd PRead s) /\
         process W app cs T (ar_scripts a) (e_conn e) (sv_world W s1) = Ret (r, c, tr, w) /\
         let s2 := set_world W w (set_conns W (mput fd (Entry (e_socket e) (e_born e) c (Some r) (e_trace e ++ tr)) (conns s1)) s1) in
         s' = match r with
              | WantWrite => set linux W (ctl_ok 1 a) fd (Z.lor PRead PWrite) s2
              | WantRead => s2
              | DiscardConnection => erase W fd (remove linux W fd s2)
              end).
  Proof.
    unfold handle_connection_events. destruct (mget fd (conns s)) as [e|] eqn:Ec; [|intros [= <-]; auto].
    destruct (has_event ev PError || has_event ev PHangup).
    { intros [= <-]. right. exists e. split; [exact Ec|]. auto. }
    destruct (negb (has_event ev PRead) && negb (has_event ev PWrite)); [intros [= <-]; auto|].
    set (s1 := if has_event ev PWrite then _ else _).
    assert (H1 : s1 = s \/ s1 = set linux W (ctl_ok 0 a) fd PRead s) by (unfold s1; destruct (has_event ev PWrite); auto).
    clearbody s1. destruct (process W app cs T (ar_scripts a) (e_conn e) (sv_world W s1)) as [[[[r c] tr] w]| | |] eqn:Ep; cbn [obind]; try discriminate.
    intros E. right. exists e. split; [exact Ec|]. right. exists s1, r, c, tr, w. split; [exact H1|]. split; [exact Ep|].
    destruct r; injection E as <-; reflexivity.
  Qed.
  Lemma set_conns_same ok fd ev s : conns (set linux W ok fd ev s) = conns s /\ sv_world W (set linux W ok fd ev s) = sv_world W s.
  Proof. auto. Qed.
  Lemma events_good fd ev a s s' : good s -> none_discarded W s -> scripts_ok (ar_scripts a) ->
    handle_connection_events linux W app cs T fd ev a s = Ret s' -> good s' /\ none_discarded W s'.
  Proof.
    intros H Hn Hs E. apply events_cases in E as [->|(e & Hc & [->|(s1 & r & c & tr & w & H1 & Ep & ->)])]; [auto| |].
    - pose proof (drop_erase_remove linux W fd e s Hc (good_open _ _ _ H Hc)) as D. split; [exact (dropped_good _ _ _ _ H Hc D)|].
      intros x e'. unfold conn_at. rewrite (dr_conns _ _ _ _ _ D), mget_mdel. destruct (x =? fd); [discriminate|]. apply Hn.
    - assert (G1 : good s1) by (destruct H1 as [->| ->]; [exact H|apply set_good; [exact H|right; now exists e]]).
      assert (C1 : conns s1 = conns s) by (destruct H1 as [->| ->]; reflexivity).
      assert (Hc1 : conn_at W s1 fd e) by (unfold conn_at; now rewrite C1).
      set (e' := Entry (e_socket e) (e_born e) c (Some r) (e_trace e ++ tr)).
      assert (G2 : good (set_world W w (set_conns W (mput fd e' (conns s1)) s1))).
      { eapply updated_good; [exact G1|exact Hc1|reflexivity|]. unfold own_life, e'. cbn [e_born e_result e_conn e_trace].
        eapply session_process; [exact (proj1 (g_lives _ G1) fd e Hc1)|exact (Hn fd e Hc)|exact Hs|exact I|exact Ep]. }
      cbv zeta. set (s2 := set_world _ _ _) in *.
      assert (Hc2 : forall x a, conn_at W s2 x a <-> (x = fd /\ a = e') \/ (x <> fd /\ conn_at W s x a)).
      { intros x b. unfold conn_at, s2. cbn [set_world set_conns sv_conns]. rewrite mget_mput, C1. destruct (Z.eqb_spec x fd); split; try tauto; [intros [= <-]; auto|intros [[_ ->]|[? _]]; [reflexivity|easy]]. }
      destruct r.
      + split; [exact G2|]. intros x b K. apply Hc2 in K as [[_ ->]|[_ K]]; [discriminate|exact (Hn x b K)].
      + split; [apply set_good; [exact G2|right; exists e'; apply Hc2; auto]|]. intros x b K. apply Hc2 in K as [[_ ->]|[_ K]]; [discriminate|exact (Hn x b K)].
      + assert (K2 : conn_at W s2 fd e') by (apply Hc2; auto).
        pose proof (drop_remove_erase linux W fd e' s2 K2 (good_open _ _ _ G2 K2)) as D. split; [exact (dropped_good _ _ _ _ G2 K2 D)|].
        intros x b. unfold conn_at. rewrite (dr_conns _ _ _ _ _ D), mget_mdel. destruct (Z.eqb_spec x fd); [discriminate|]. intros K. apply Hc2 in K as [[K _]|[_ K]]; [easy|exact (Hn x b K)].
  Qed.
  Lemma incoming_none a s s' : none_discarded W s -> handle_incoming_connection linux W a s = Ret s' -> none_discarded W s'.
  Proof.
    intros H E. apply incoming_cases in E as [->|[(fd & _ & _ & _ & ->)|(fd & _ & _ & _ & ->)]]; [exact H|exact H|].
    intros x e. unfold conn_at. cbn [set set_poller set_conns sv_conns]. rewrite mget_mput. destruct (x =? fd); [intros [= <-]; discriminate|apply H].
  Qed.
  Definition around_ok (x : Z * (Z * surroundings)) : Prop := scripts_ok (ar_scripts (snd (snd x))).
  Lemma batch_good evs : forall s s', good s -> none_discarded W s -> Forall around_ok evs ->
    handle_events linux listener W app cs T evs s = Ret s' -> good s' /\ none_discarded W s'.
  Proof.
    induction evs as [|[fd [ev a]] evs IH]; intros s s' H Hn Ha E; [injection E as <-; auto|]. cbn [handle_events] in E.
    apply Forall_cons_iff in Ha as [Ha Ha']. destruct (fd =? listener) eqn:El.
    - destruct (handle_incoming_connection linux W a s) as [s1| | |] eqn:E1; try discriminate E. cbn [obind] in E.
      exact (IH s1 s' (incoming_good _ _ _ H E1) (incoming_none _ _ _ Hn E1) Ha' E).
    - destruct (handle_connection_events linux W app cs T fd ev a s) as [s1| | |] eqn:E1; try discriminate E. cbn [obind] in E.
      destruct (events_good _ _ _ _ _ H Hn Ha E1) as [G N]. exact (IH s1 s' G N Ha' E).
  Qed.

  (** ** Reaping *)
  Definition expired (clock : Z -> Z) (fd : Z) (e : entry) : bool := has_timed_out (clock fd) (e_conn e).
  Lemma reap_spec clock l : forall s, good s -> none_discarded W s ->
    NoDup (map fst l) -> (forall fd e, In (fd, e) l -> conn_at W s fd e) ->
    let s' := reap linux W clock l s in
    good s' /\ none_discarded W s' /\ sv_stop W s' = sv_stop W s /\ sv_world W s' = sv_world W s /\
    p_size (sv_poller W s') = p_size (sv_poller W s) /\
    (forall fd, mget fd (conns s') = match mget fd (conns s) with
                                     | Some e => if mhas fd l && expired clock fd e then None else Some e
                                     | None => None
                                     end) /\
    (forall fd, mget fd (pfds s') = match mget fd (conns s) with
                                    | Some e => if mhas fd l && expired clock fd e then None else mget fd (pfds s)
                                    | None => mget fd (pfds s)
                                    end).
  Proof.
    induction l as [|[fd e] l IH]; intros s H Hn Hd Hl s'.
    - subst s'. cbn [reap]. split; [exact H|]. split; [exact Hn|]. split; [reflexivity|]. split; [reflexivity|]. split; [reflexivity|].
      split; intros fd; destruct (mget fd (conns s)); reflexivity.
    - cbn [map fst] in Hd. inversion Hd as [|x y Hd1 Hd2]; subst x y. subst s'. cbn [reap].
      assert (Hc : conn_at W s fd e) by (apply Hl; now left).
      assert (Hfd : mget fd l = None) by (destruct (mget fd l) eqn:E; [exfalso; apply Hd1, mget_in; congruence|reflexivity]).
      fold (expired clock fd e). destruct (expired clock fd e) eqn:Ex.
      + pose proof (drop_remove_erase linux W fd e s Hc (good_open _ _ _ H Hc)) as D. set (s1 := erase W fd (remove linux W fd s)) in *.
        assert (HC : forall x, mget x (conns s1) = if x =? fd then None else mget x (conns s)) by (intros x; rewrite (dr_conns _ _ _ _ _ D); apply mget_mdel).
        assert (N1 : none_discarded W s1).
        { intros x b. unfold conn_at. rewrite HC. destruct (x =? fd); [discriminate|apply Hn]. }
        destruct (IH s1 (dropped_good _ _ _ _ H Hc D) N1 Hd2) as (I1 & I2 & I3 & I4 & I5 & I6 & I7).
        { intros x b K. unfold conn_at. rewrite HC. destruct (Z.eqb_spec x fd) as [->|N]; [|apply Hl; now right].
          exfalso. apply Hd1. apply in_map_iff. exists (fd, b). auto. }
        split; [exact I1|]. split; [exact I2|]. split; [rewrite I3; exact (dr_stop _ _ _ _ _ D)|]. split; [rewrite I4; exact (dr_world _ _ _ _ _ D)|].
        split; [rewrite I5; exact (dr_size _ _ _ _ _ D)|]. split.
        * intros x. rewrite I6, HC. unfold mhas. cbn [mget]. destruct (Z.eqb_spec x fd) as [->|N]; [|reflexivity].
          unfold conn_at in Hc. rewrite Hc. cbn [andb]. now rewrite Ex.
        * intros x. rewrite I7, HC, (dr_fds _ _ _ _ _ D), mget_mdel. unfold mhas. cbn [mget]. destruct (Z.eqb_spec x fd) as [->|N]; [|reflexivity].
          unfold conn_at in Hc. rewrite Hc. cbn [andb]. now rewrite Ex.
      + destruct (IH s H Hn Hd2) as (I1 & I2 & I3 & I4 & I5 & I6 & I7); [intros x b K; apply Hl; now right|].
        split; [exact I1|]. split; [exact I2|]. split; [exact I3|]. split; [exact I4|]. split; [exact I5|].
        split; intros x; [rewrite I6|rewrite I7]; (destruct (mget x (conns s)) as [b|] eqn:Eb; [|reflexivity]);
          unfold mhas; cbn [mget]; destruct (Z.eqb_spec x fd) as [->|N]; try reflexivity;
          unfold conn_at in Hc; rewrite Hc in Eb; injection Eb as <-; rewrite Hfd, Ex; reflexivity.
  Qed.
  Lemma reap_all clock s : good s -> none_discarded W s ->
    let s' := reap_idle_connections linux W clock s in
    good s' /\ none_discarded W s' /\ sv_stop W s' = sv_stop W s /\ sv_world W s' = sv_world W s /\
    p_size (sv_poller W s') = p_size (sv_poller W s) /\
    (forall fd, mget fd (conns s') = match mget fd (conns s) with
                                     | Some e => if expired clock fd e then None else Some e
                                     | None => None
                                     end) /\
    (forall fd, mget fd (pfds s') = match mget fd (conns s) with
                                    | Some e => if expired clock fd e then None else mget fd (pfds s)
                                    | None => mget fd (pfds s)
                                    end).
  Proof.
    intros H Hn. destruct (g_limit s H) as (_ & M & _).
    destruct (reap_spec clock (conns s) s H Hn M (fun fd e K => proj2 (mget_entry (conns s) M fd e) K)) as (I1 & I2 & I3 & I4 & I5 & I6 & I7).
    split; [exact I1|]. split; [exact I2|]. split; [exact I3|]. split; [exact I4|]. split; [exact I5|].
    unfold reap_idle_connections. split; intros x; [rewrite I6|rewrite I7]; unfold mhas; destruct (mget x (conns s)) as [b|] eqn:Eb; reflexivity.
  Qed.

  (** ** Waiting *)
  Lemma distinct_spec {A} (evs : list (Z * A)) : forall seen, NoDup (map fst (distinct seen evs)) /\
    (forall x, In x (distinct seen evs) -> In x evs /\ ~ In (fst x) seen).
  Proof.
    induction evs as [|[fd x] evs IH]; intros seen; cbn [distinct]; [split; [constructor|easy]|].
    destruct (existsb (Z.eqb fd) seen) eqn:E.
    - destruct (IH seen) as [I1 I2]. split; [exact I1|]. intros y Hy. apply I2 in Hy as [Hy Hy']. split; [now right|exact Hy'].
    - destruct (IH (fd :: seen)) as [I1 I2].
      assert (Hfd : ~ In fd seen).
      { intros K. apply not_true_iff_false in E. apply E. apply existsb_exists. exists fd. split; [exact K|apply Z.eqb_refl]. }
      split.
      + cbn [map fst]. constructor; [|exact I1]. intros K. apply in_map_iff in K as (y & E' & K). apply I2 in K as [_ K]. apply K. left. now symmetry.
      + intros y [<-|Hy]; [split; [now left|exact Hfd]|]. apply I2 in Hy as [Hy Hy']. split; [now right|]. intros K. apply Hy'. now right.
  Qed.
  Lemma firstn_in {A} n (l : list A) x : In x (firstn n l) -> In x l.
  Proof. intros H. rewrite <- (firstn_skipn n l). apply in_or_app. now left. Qed.
  Lemma firstn_nodup {A B} (f : A -> B) n l : NoDup (map f l) -> NoDup (map f (firstn n l)).
  Proof.
    revert n. induction l as [|x l IH]; intros [|n] H; cbn [firstn map]; try apply NoDup_nil. cbn [map] in H. inversion H; subst.
    apply NoDup_cons; [|auto]. intros K. apply in_map_iff in K as (y & E & K). apply firstn_in in K. apply H2. apply in_map_iff. eauto.
  Qed.
  Lemma wait_spec {A} p k (evs : list (Z * A)) : NoDup (map fst (k_wait linux p k evs)) /\
    forall x, In x (k_wait linux p k evs) -> In x evs /\ (if linux then mget (fst x) (k_watch k) <> None else mget (fst x) (p_fds p) <> None).
  Proof.
    unfold k_wait. destruct linux.
    - destruct (distinct_spec (filter (fun x => mhas (fst x) (k_watch k)) evs) []) as [I1 I2]. split; [now apply firstn_nodup|].
      intros x Hx. apply firstn_in in Hx. apply I2 in Hx as [Hx _]. apply filter_In in Hx as [Hx Hx']. split; [exact Hx|now apply mhas_true].
    - destruct (distinct_spec (filter (fun x => mhas (fst x) (p_fds p)) evs) []) as [I1 I2]. split; [exact I1|].
      intros x Hx. apply I2 in Hx as [Hx _]. apply filter_In in Hx as [Hx Hx']. split; [exact Hx|now apply mhas_true].
  Qed.
  (** The batch: distinct descriptors, each the listener's or a connection's. *)
  Lemma poll_spec (r : wait_result (Z * surroundings)) s events p : good s -> poller_poll linux r (sv_poller W s) (ker s) = (events, p) ->
    p_fds p = pfds s /\ In (p_size p) [64; 128; 256] /\
    forall evs, events = Val evs ->
      NoDup (map fst evs) /\ (forall x, In x (map fst evs) -> x = listener \/ exists e, conn_at W s x e) /\
      (forall fd m a, In (fd, (m, a)) evs -> exists raw m', r = WaitEvents raw /\ In (fd, (m', a)) raw).
  Proof.
    intros H E. destruct (g_limit s H) as (M1 & M2 & M3). unfold poller_poll in E. destruct r as [|e|raw].
    - injection E as <- <-. split; [reflexivity|]. split; [exact M3|discriminate].
    - injection E as <- <-. split; [reflexivity|]. split; [exact M3|discriminate].
    - destruct (wait_spec (sv_poller W s) (ker s) raw) as [I1 I2]. destruct (k_wait linux (sv_poller W s) (ker s) raw) as [|y ys] eqn:Ew.
      { injection E as <- <-. split; [reflexivity|]. split; [exact M3|discriminate]. }
      rewrite <- Ew in *. clear y ys Ew. set (ws := k_wait linux (sv_poller W s) (ker s) raw) in *.
      assert (Hin : forall x, In x (map fst ws) -> x = listener \/ exists e, conn_at W s x e).
      { intros x K. apply in_map_iff in K as (z & <- & K). apply I2 in K as [_ K]. destruct (g_stale s H) as [P1 P2].
        assert (K' : mget (fst z) (pfds s) <> None).
        { destruct linux; [|exact K]. rewrite P2 in K by reflexivity. intros E'. apply K. now rewrite E'. }
        destruct (mget (fst z) (pfds s)) as [v|] eqn:Ev; [|easy]. exact (P1 _ _ Ev). }
      assert (Hlen : lenZ ws <= 129).
      { assert (K : (length (map fst ws) <= length (listener :: map fst (conns s)))%nat).
        { apply NoDup_incl_length; [exact I1|]. intros x Kx. apply Hin in Kx as [->|[e Kx]]; [now left|right].
          apply mget_in. unfold conn_at in Kx. congruence. }
        rewrite map_length in K. cbn [length] in K. rewrite map_length in K. unfold lenZ in *. lia. }
      injection E as <- <-. split; [now destruct (linux && _)|]. split.
      + destruct linux; cbn [andb]; [|exact M3]. destruct (Z.eqb_spec (lenZ ws) (p_size (sv_poller W s))) as [Es|]; [|exact M3].
        cbn [p_size]. cbn [In] in M3 |- *. destruct M3 as [M3|[M3|[M3|[]]]]; rewrite <- M3 in *; lia.
      + intros evs [= <-]. rewrite map_map. cbn [fst]. split; [exact I1|]. split; [exact Hin|].
        intros fd m a K. apply in_map_iff in K as ([fd' [m' a']] & E' & K). cbn [fst snd] in E'. injection E' as -> _ ->. apply I2 in K as [K _]. eauto.
  Qed.
  Lemma size_good p s : good s -> p_fds p = pfds s -> In (p_size p) [64; 128; 256] -> good (set_poller W (p, ker s) s).
  Proof.
    intros H E1 E2. destruct H as [H1 H2 H3 H4 H5 H6]. split; [exact H1|exact H2|exact H3| |exact H5|].
    - destruct H4 as [P1 P2]. split; cbn [set_poller sv_poller sv_kernel fst snd]; rewrite E1; assumption.
    - destruct H6 as (M1 & M2 & M3). split; [exact M1|]. split; [exact M2|exact E2].
  Qed.
  Lemma stop_good r s : good s -> good (stop W r s).
  Proof. intros H. destruct H as [H1 H2 H3 H4 H5 H6]. split; assumption. Qed.

  (** ** The loop *)
  (** The state in which the batch of an iteration begins, and the batch. *)
  Definition batch (it : iteration) (s : server) : list (Z * (Z * surroundings)) * server :=
    let s := reap_idle_connections linux W (it_clock it) s in
    let (events, p) := poller_poll linux (it_wait it) (sv_poller W s) (ker s) in
    (match events with Val evs => evs | Error _ => [] end, set_poller W (p, ker s) s).
  Lemma iterate_batch it s : iterate linux listener W app cs T it s =
    let! s' := handle_events linux listener W app cs T (fst (batch it s)) (snd (batch it s)) in
    Ret (fold_left (fun s r => stop W r s) (it_stops it) s').
  Proof.
    unfold iterate, batch. destruct (poller_poll linux _ _ _) as [[evs|e] p]; cbn [fst snd]; reflexivity.
  Qed.
  Lemma batch_spec it s : good s -> none_discarded W s ->
    let evs := fst (batch it s) in let s1 := snd (batch it s) in
    good s1 /\ none_discarded W s1 /\ NoDup (map fst evs) /\
    (forall x, In x (map fst evs) -> x = listener \/ exists e, conn_at W s1 x e) /\
    (iteration_ok it -> Forall around_ok evs).
  Proof.
    intros H Hn. unfold batch. destruct (reap_all (it_clock it) s H Hn) as (I1 & I2 & _).
    set (s1 := reap_idle_connections linux W (it_clock it) s) in *.
    destruct (poller_poll linux (it_wait it) (sv_poller W s1) (ker s1)) as [events p] eqn:E. cbn [fst snd].
    destruct (poll_spec _ _ _ _ I1 E) as (P1 & P2 & P3). split; [now apply size_good|]. split; [exact I2|].
    destruct events as [evs|e]; [|split; [constructor|split; [easy|intros _; constructor]]].
    destruct (P3 evs eq_refl) as (Q1 & Q2 & Q3). split; [exact Q1|]. split; [exact Q2|].
    intros Hok. apply Forall_forall. intros [fd [m a]] K. destruct (Q3 _ _ _ K) as (raw & m' & Er & Kr).
    unfold iteration_ok in Hok. rewrite Er in Hok. rewrite Forall_forall in Hok. exact (Hok _ Kr).
  Qed.
  Lemma stops_good l : forall s, good s -> none_discarded W s ->
    good (fold_left (fun s r => stop W r s) l s) /\ none_discarded W (fold_left (fun s r => stop W r s) l s).
  Proof. induction l as [|r l IH]; intros s H Hn; [auto|]. cbn [fold_left]. apply IH; [now apply stop_good|exact Hn]. Qed.
  Lemma iterate_good it s s' : good s -> none_discarded W s -> iteration_ok it ->
    iterate linux listener W app cs T it s = Ret s' -> good s' /\ none_discarded W s'.
  Proof.
    intros H Hn Hok E. rewrite iterate_batch in E. destruct (batch_spec it s H Hn) as (I1 & I2 & _ & _ & I5).
    destruct (handle_events linux listener W app cs T (fst (batch it s)) (snd (batch it s))) as [s2| | |] eqn:E2; try discriminate. cbn [obind] in E.
    injection E as <-. destruct (batch_good _ _ _ I1 I2 (I5 Hok) E2) as [J1 J2]. now apply stops_good.
  Qed.
  Lemma loop_good its : forall s b s', good s -> none_discarded W s -> Forall iteration_ok its ->
    loop linux listener W app cs T its s = Ret (b, s') -> good s' /\ none_discarded W s'.
  Proof.
    induction its as [|it its IH]; intros s b s' H Hn Hok E; cbn [loop] in E.
    - destruct (sv_stop W s); injection E as <- <-; auto.
    - destruct (sv_stop W s); [injection E as <- <-; auto|]. apply Forall_cons_iff in Hok as [Hok Hok'].
      destruct (iterate linux listener W app cs T it s) as [s1| | |] eqn:E1; try discriminate. cbn [obind] in E.
      destruct (iterate_good _ _ _ H Hn Hok E1) as [G N]. eauto.
  Qed.
  Definition first_state (ok : bool) (stopped : option stop_reason) : server :=
    set linux W ok listener PRead (Server W [] stopped new_poller (k_new listener k0) w0 []).
  Lemma first_good ok stopped : good (first_state ok stopped) /\ none_discarded W (first_state ok stopped).
  Proof.
    split; [|intros fd e; discriminate]. apply set_good; [|auto]. destruct Hk0 as (K1 & K2 & K3 & K4). destruct Hl0 as [L1 L2].
    split.
    - split; [intros fd e; discriminate|]. intros fd n. cbn [sv_kernel k_new k_open]. rewrite mget_mput. destruct (Z.eqb_spec fd listener) as [->|N].
      + split; [intros [= <-]; auto|]. intros [K|[[_ K]|(e & K & _)]]; [congruence|congruence|discriminate].
      + split; [auto|]. intros [K|[[K _]|(e & K & _)]]; [auto|easy|discriminate].
    - unfold sockets, accepted. cbn [sv_kernel k_new k_objects k_closed sv_gone]. rewrite K4. split; [|split; [|split; [|split; [|split]]]].
      + intros n. split; [lia|]. intros [(fd & e & K & _)|[]]. discriminate.
      + intros fd e; discriminate.
      + intros fd e fd' e'; discriminate.
      + constructor.
      + easy.
      + constructor.
    - cbn [sv_kernel k_new k_objects]. lia.
    - split; cbn [sv_poller new_poller p_fds sv_kernel k_new k_watch]; [discriminate|]. intros _ fd. now rewrite K3.
    - split; [intros fd e; discriminate|constructor].
    - split; [easy|]. split; [constructor|]. now left.
  Qed.
End Inv.
