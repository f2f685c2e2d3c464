(** Proofs about the life of TLS objects (C89). *)
From Verif Require Import Base BaseLemmas Poller SocketFd TlsLife SpecServer ServerProofs SocketProofs.

Lemma NoDup_snoc {A} (l : list A) x : NoDup l -> ~ In x l -> NoDup (l ++ [x]).
Proof.
  induction 1 as [|y l Hy _ IH]; intros Hx; cbn [Datatypes.app]; constructor; [easy|constructor| |].
  - rewrite in_app_iff. intros [K|[<-|[]]]; [auto|]. apply Hx. now left.
  - apply IH. intros K. apply Hx. now right.
Qed.
Section Life.
  Variable k0 : kernel.
  Hypothesis Hk0 : in_order k0.
  Notation sound := (sound k0).

  Lemma fd_of_set h fd s x : fd_of x (set_fd h fd s) = if x =? h then fd else fd_of x s.
  Proof. unfold fd_of, set_fd. cbn [hd_fds]. rewrite mget_mput. now destruct (x =? h). Qed.
  Lemma owner_of s h : 0 <= fd_of h s -> owner s h (fd_of h s).
  Proof. unfold fd_of, owner. destruct (mget h (hd_fds s)); [auto|lia]. Qed.
  Lemma close_fd x h s : x <> h -> fd_of x (sfd_close h s) = fd_of x s.
  Proof. intros N. unfold sfd_close. destruct (fd_of h s >=? 0); [|reflexivity]. rewrite fd_of_set. destruct (Z.eqb_spec x h); [easy|reflexivity]. Qed.
  Lemma close_open s h x : sound s -> x <> h -> open_under (fd_of x s) (sfd_close h s) = open_under (fd_of x s) s.
  Proof.
    intros H N. unfold sfd_close. destruct (fd_of h s >=? 0) eqn:E; [|reflexivity]. unfold open_under, set_fd. cbn [hd_kernel]. unfold k_close.
    destruct (mget (fd_of h s) (k_open (hd_kernel s))) eqn:E1; [|reflexivity]. cbn [k_open]. rewrite mget_mdel.
    destruct (Z.eqb_spec (fd_of x s) (fd_of h s)) as [E2|]; [|reflexivity]. elim N.
    apply (so_unique k0 s H x h (fd_of h s)); [rewrite <- E2|]; apply owner_of; lia.
  Qed.
  Lemma close_fds s h x : mget x (hd_fds s) <> None -> mget x (hd_fds (sfd_close h s)) <> None.
  Proof. intros H. unfold sfd_close. destruct (fd_of h s >=? 0); [|exact H]. unfold set_fd. cbn [hd_fds]. rewrite mget_mput. now destruct (x =? h). Qed.

  (** The handles change, but not those of the transports. *)
  Definition keeps (x : Z) (s s' : handles) : Prop :=
    fd_of x s' = fd_of x s /\ open_under (fd_of x s) s' = open_under (fd_of x s) s /\
    (mget x (hd_fds s) <> None -> mget x (hd_fds s') <> None).
  Lemma keeps_obtain s h fd x : sound s -> mget h (hd_fds s) = None -> 0 <= fd -> open_under fd s = None -> x <> h -> keeps x s (sfd_obtain h fd s).
  Proof.
    intros H H1 H2 H3 N. unfold sfd_obtain. split; [|split].
    - rewrite fd_of_set. destruct (Z.eqb_spec x h); [easy|reflexivity].
    - unfold open_under, set_fd, k_new. cbn [hd_kernel k_open]. rewrite mget_mput. destruct (Z.eqb_spec (fd_of x s) fd) as [E|]; [|reflexivity].
      assert (K : owner s x (fd_of x s)) by (apply owner_of; lia). apply (so_owned k0 s H) in K as (n & K & _). unfold open_under in H3. congruence.
    - intros K. unfold set_fd. cbn [hd_fds]. rewrite mget_mput. now destruct (x =? h).
  Qed.
  Lemma keeps_close s h x : sound s -> x <> h -> keeps x s (sfd_close h s).
  Proof. intros H N. split; [now apply close_fd|]. split; [now apply close_open|now apply close_fds]. Qed.
  Lemma keeps_destroy s h x : sound s -> x <> h -> keeps x s (sfd_destroy h s).
  Proof.
    intros H N. destruct (keeps_close s h x H N) as (K1 & K2 & K3). unfold sfd_destroy. split; [|split].
    - rewrite <- K1. unfold fd_of. cbn [hd_fds]. rewrite mget_mdel. destruct (Z.eqb_spec x h); [easy|reflexivity].
    - exact K2.
    - intros K. cbn [hd_fds]. rewrite mget_mdel. destruct (Z.eqb_spec x h); [easy|auto].
  Qed.
  Lemma keeps_move s h other x : x <> h -> x <> other -> keeps x s (sfd_move h other s).
  Proof.
    intros N1 N2. unfold sfd_move. split; [|split].
    - rewrite !fd_of_set. destruct (Z.eqb_spec x other), (Z.eqb_spec x h); try easy.
    - reflexivity.
    - intros K. unfold set_fd. cbn [hd_fds]. rewrite !mget_mput. now destruct (x =? other), (x =? h).
  Qed.
  Lemma assign_is s h other : h <> other -> sfd_assign h other s = sfd_move h other (sfd_close h s).
  Proof. intros N. unfold sfd_assign. destruct (Z.eqb_spec h other); [easy|]. reflexivity. Qed.
  Lemma keeps_trans x s1 s2 s3 : keeps x s1 s2 -> keeps x s2 s3 -> keeps x s1 s3.
  Proof. intros (A1 & A2 & A3) (B1 & B2 & B3). unfold keeps. rewrite B1, A1. rewrite A1 in B2. rewrite B2, A2. auto. Qed.
  (** What [other] had is [h]'s. *)
  Lemma move_gets s h other : h <> other -> fd_of h (sfd_move h other s) = fd_of other s /\ open_under (fd_of other s) (sfd_move h other s) = open_under (fd_of other s) s.
  Proof. intros N. split; [|reflexivity]. unfold sfd_move. rewrite !fd_of_set. destruct (Z.eqb_spec h other); [easy|]. now rewrite Z.eqb_refl. Qed.
  Lemma move_has s h other x : mget x (hd_fds s) <> None \/ x = h \/ x = other -> mget x (hd_fds (sfd_move h other s)) <> None.
  Proof.
    intros H. unfold sfd_move, set_fd. cbn [hd_fds]. rewrite !mget_mput. destruct (Z.eqb_spec x other); [easy|]. destruct (Z.eqb_spec x h); [easy|]. tauto.
  Qed.

  (** ** The invariant *)
  Record good (s : tls_objects) : Prop := {
    g_hist : history k0 (to_handles s);
    g_has : forall t, mget t (to_ssl s) <> None -> mget t (hd_fds (to_handles s)) <> None;
    g_unique : forall t t' p, ssl_of t s = Some p -> ssl_of t' s = Some p -> t = t';
    g_own : forall t p, ssl_of t s = Some p ->
      nth_error (to_made s) p = Some (fd_of t (to_handles s), open_under (fd_of t (to_handles s)) (to_handles s)) /\ ~ In p (map fst (to_freed s));
    g_once : NoDup (map fst (to_freed s));
    g_freed : forall p n, In (p, n) (to_freed s) -> exists fd, nth_error (to_made s) p = Some (fd, n) }.
  Definition accounted (s : tls_objects) : Prop :=
    forall p, (p < length (to_made s))%nat -> In p (map fst (to_freed s)) \/ exists t, ssl_of t s = Some p.

  Lemma ssl_has t p s : ssl_of t s = Some p -> mget t (to_ssl s) <> None.
  Proof. unfold ssl_of. now destruct (mget t (to_ssl s)). Qed.
  Lemma ssl_set t q s x : ssl_of x (set_ssl t q s) = if x =? t then q else ssl_of x s.
  Proof. unfold ssl_of, set_ssl. cbn [to_ssl]. rewrite mget_mput. now destruct (x =? t). Qed.

  Lemma good_handles s h : good s -> history k0 h -> (forall t, mget t (to_ssl s) <> None -> keeps t (to_handles s) h) -> good (set_handles h s).
  Proof.
    intros [G1 G2 G3 G4 G5 G6] Hh Hk. split; cbn [set_handles to_handles to_ssl to_made to_freed]; auto.
    - intros t Ht. apply (Hk t Ht). auto.
    - intros t p Ht. destruct (G4 t p Ht) as [K1 K2]. split; [|exact K2]. destruct (Hk t) as (A1 & A2 & _); [exact (ssl_has t p s Ht)|].
      rewrite A1, A2. exact K1.
  Qed.
  Lemma good_free s t : good s -> good (ssl_free t s) /\ to_handles (ssl_free t s) = to_handles s /\ ssl_of t (ssl_free t s) = None /\
    (forall x, x <> t -> ssl_of x (ssl_free t s) = ssl_of x s) /\ (forall x, mget x (to_ssl s) <> None -> mget x (to_ssl (ssl_free t s)) <> None) /\
    (forall x, mget x (to_ssl (ssl_free t s)) <> None -> mget x (to_ssl s) <> None) /\
    (accounted s -> accounted (ssl_free t s)).
  Proof.
    intros G. unfold ssl_free. destruct (ssl_of t s) as [p|] eqn:E; [|now repeat (split; [auto|]); auto].
    pose proof G as [G1 G2 G3 G4 G5 G6]. destruct (G4 t p E) as [K1 K2].
    assert (Ef : fst (nth p (to_made s) (-1, None)) = fd_of t (to_handles s)) by (now rewrite (nth_error_nth _ _ _ K1)). rewrite Ef.
    set (s' := TlsObjects _ _ _ _).
    assert (Hs : forall x, ssl_of x s' = if x =? t then None else ssl_of x s).
    { intros x. unfold ssl_of, s'. cbn [to_ssl]. rewrite mget_mput. now destruct (x =? t). }
    assert (Hh : forall x, mget x (to_ssl s') <> None <-> mget x (to_ssl s) <> None).
    { intros x. unfold s'. cbn [to_ssl]. rewrite mget_mput. destruct (Z.eqb_spec x t) as [->|]; [|reflexivity]. split; [|easy]. intros _. exact (ssl_has t p s E). }
    split; [split|split; [reflexivity|split; [|split; [|split; [|split]]]]].
    - exact G1.
    - intros x Hx. apply G2. now apply Hh.
    - intros x y q. rewrite !Hs. destruct (x =? t), (y =? t); try discriminate. apply G3.
    - intros x q. rewrite Hs. destruct (Z.eqb_spec x t); [discriminate|]. intros Hx. destruct (G4 x q Hx) as [L1 L2]. split; [exact L1|].
      unfold s'. cbn [to_freed]. rewrite map_app, in_app_iff. intros [K|[<-|[]]]; [auto|]. apply n. exact (G3 x t p Hx E).
    - unfold s'. cbn [to_freed]. rewrite map_app. cbn [map fst]. apply NoDup_snoc; assumption.
    - unfold s'. cbn [to_freed to_made]. intros q n Hi. apply in_app_iff in Hi as [Hi|[[= <- <-]|[]]]; [auto|]. eauto.
    - rewrite Hs. now rewrite Z.eqb_refl.
    - intros x N. rewrite Hs. destruct (Z.eqb_spec x t); [easy|reflexivity].
    - intros x. apply Hh.
    - intros x. apply Hh.
    - intros A q Hq. cbn [to_made s'] in Hq. destruct (A q Hq) as [K|[x K]].
      + left. unfold s'. cbn [to_freed]. rewrite map_app, in_app_iff. now left.
      + destruct (Z.eqb_spec x t) as [->|N].
        * left. unfold s'. cbn [to_freed]. rewrite map_app, in_app_iff. right. left. cbn. congruence.
        * right. exists x. rewrite Hs. destruct (Z.eqb_spec x t); [easy|exact K].
  Qed.

  (** [t] takes over what [other] has, with its descriptor. *)
  Lemma good_take s t other h : good s -> t <> other -> ssl_of t s = None -> mget other (to_ssl s) <> None -> history k0 h ->
    (forall x, x <> t -> x <> other -> mget x (to_ssl s) <> None -> keeps x (to_handles s) h) ->
    fd_of t h = fd_of other (to_handles s) -> open_under (fd_of other (to_handles s)) h = open_under (fd_of other (to_handles s)) (to_handles s) ->
    mget t (hd_fds h) <> None -> mget other (hd_fds h) <> None ->
    let s' := set_ssl other None (set_ssl t (ssl_of other s) (set_handles h s)) in good s' /\ (accounted s -> accounted s').
  Proof.
    intros [G1 G2 G3 G4 G5 G6] N Et Ho Hh Hk E1 E2 M1 M2 s'.
    assert (Hs : forall x, ssl_of x s' = if x =? other then None else if x =? t then ssl_of other s else ssl_of x s).
    { intros x. unfold s'. rewrite !ssl_set. reflexivity. }
    split; [split|].
    - exact Hh.
    - intros x. unfold s'. cbn [to_handles set_handles set_ssl to_ssl]. rewrite !mget_mput.
      destruct (Z.eqb_spec x other) as [->|N1]; [auto|]. destruct (Z.eqb_spec x t) as [->|N2]; [auto|].
      intros Hx. apply (Hk x N2 N1 Hx). auto.
    - intros x y p. rewrite !Hs. destruct (Z.eqb_spec x other); [discriminate|]. destruct (Z.eqb_spec y other); [discriminate|].
      destruct (Z.eqb_spec x t), (Z.eqb_spec y t); subst; intros A B; auto.
      + elim n0. exact (G3 _ _ _ B A).
      + elim n. exact (G3 _ _ _ A B).
      + exact (G3 _ _ _ A B).
    - intros x p. rewrite Hs. cbn [to_made to_freed to_handles set_ssl set_handles s']. destruct (Z.eqb_spec x other); [discriminate|].
      destruct (Z.eqb_spec x t) as [->|N2]; intros Hx.
      + destruct (G4 other p Hx) as [K1 K2]. split; [|exact K2]. now rewrite E1, E2.
      + destruct (G4 x p Hx) as [K1 K2]. split; [|exact K2]. destruct (Hk x N2 n (ssl_has x p s Hx)) as (A1 & A2 & _). now rewrite A1, A2.
    - exact G5.
    - exact G6.
    - intros A p Hp. destruct (A p Hp) as [K|[x K]]; [now left|right]. destruct (Z.eqb_spec x other) as [->|N1].
      + exists t. rewrite Hs. destruct (Z.eqb_spec t other); [easy|]. now rewrite Z.eqb_refl.
      + exists x. rewrite Hs. destruct (Z.eqb_spec x other); [easy|]. destruct (Z.eqb_spec x t) as [->|]; [congruence|exact K].
  Qed.

  Lemma good_all lucky : forall s, tls_history k0 lucky s -> good s /\ (lucky = true -> accounted s).
  Proof.
    assert (Hsound : forall s, good s -> sound (to_handles s)) by (intros s G; apply (history_sound k0 Hk0), (g_hist s G)).
    assert (Hacc : forall s h, accounted s -> accounted (set_handles h s)) by (intros s h A; exact A).
    induction 1 as [|s h fd H [G A] H1 H2 H3|s h H [G A] H1 H2|s h H [G A] H1 H2|s m t other H [G A] Hm H1 H2 H3|s t other H [G A] H1 H2|s t other H [G A] H1 H2|s t H [G A] H1].
    - split; [split; cbn; try easy; constructor|]. intros _ p Hp. cbn in Hp. lia.
    - split; [|intros L; now apply Hacc, A]. apply good_handles; [exact G|apply hist_obtain; auto; apply G|].
      intros t Ht. apply keeps_obtain; auto. intros ->. now apply (g_has s G) in Ht.
    - split; [|intros L; now apply Hacc, A]. apply good_handles; [exact G|apply hist_close; auto; apply G|].
      intros t Ht. apply keeps_close; auto. intros ->. now apply Ht.
    - split; [|intros L; now apply Hacc, A]. apply good_handles; [exact G|apply hist_destroy; auto; apply G|].
      intros t Ht. apply keeps_destroy; auto. intros ->. now apply Ht.
    - assert (N : t <> other) by congruence.
      assert (Hmove : history k0 (sfd_move t other (to_handles s))) by (apply hist_move; auto; apply G).
      assert (Hdest : history k0 (sfd_destroy t (sfd_move t other (to_handles s)))) by (apply hist_destroy; [exact Hmove|apply move_has; auto]).
      assert (Ht : forall x, mget x (to_ssl s) <> None -> x <> t /\ x <> other).
      { intros x Hx. split; intros ->; [now apply (g_has s G) in Hx|auto]. }
      assert (Kd : forall x, mget x (to_ssl s) <> None -> keeps x (to_handles s) (sfd_destroy t (sfd_move t other (to_handles s)))).
      { intros x Hx. destruct (Ht x Hx). eapply keeps_trans; [apply (keeps_move _ t other); assumption|]. apply keeps_destroy; [|assumption]. now apply (history_sound k0 Hk0). }
      unfold tls_make. destruct m.
      + pose proof G as [G1 G2 G3 G4 G5 G6]. set (h := sfd_move t other (to_handles s)) in *. set (s' := TlsObjects _ _ _ _).
        assert (Hs : forall x, ssl_of x s' = if x =? t then Some (length (to_made s)) else ssl_of x s).
        { intros x. unfold ssl_of, s'. cbn [to_ssl]. rewrite mget_mput. now destruct (x =? t). }
        assert (Hlt : forall x p, ssl_of x s = Some p -> (p < length (to_made s))%nat).
        { intros x p Hx. destruct (G4 x p Hx) as [K _]. apply nth_error_Some. congruence. }
        assert (Hfr : forall p, In p (map fst (to_freed s)) -> (p < length (to_made s))%nat).
        { intros p Hp. apply in_map_iff in Hp as [[q n] [<- Hi]]. destruct (G6 q n Hi) as [fd K]. apply nth_error_Some. cbn [fst]. congruence. }
        split; [split|].
        * exact Hmove.
        * intros x. unfold s'. cbn [to_ssl to_handles]. rewrite mget_mput. intros Hx. apply move_has. destruct (Z.eqb_spec x t); [auto|left; now apply G2].
        * intros x y p. rewrite !Hs. destruct (Z.eqb_spec x t), (Z.eqb_spec y t); subst; auto.
          -- intros [= <-] K. apply Hlt in K. lia.
          -- intros K [= <-]. apply Hlt in K. lia.
          -- apply G3.
        * intros x p. rewrite Hs. cbn [to_made to_freed to_handles s']. destruct (Z.eqb_spec x t) as [->|N2].
          -- intros [= <-]. split; [rewrite nth_error_app2, Nat.sub_diag by lia; reflexivity|]. intros K. apply Hfr in K. lia.
          -- intros Hx. destruct (G4 x p Hx) as [K1 K2]. split; [|exact K2]. rewrite nth_error_app1 by now apply (Hlt x). destruct (Ht x (ssl_has x p s Hx)) as [T1 T2].
             destruct (keeps_move (to_handles s) t other x T1 T2) as (A1 & A2 & _). fold h in A1, A2. now rewrite A1, A2.
        * exact G5.
        * intros p n Hi. destruct (G6 p n Hi) as [fd K]. exists fd. cbn [to_made s']. rewrite nth_error_app1; [exact K|]. apply nth_error_Some. congruence.
        * intros L p Hp. cbn [to_made s'] in Hp. rewrite app_length in Hp. cbn [length] in Hp. destruct (Nat.eq_dec p (length (to_made s))) as [->|Np].
          -- right. exists t. rewrite Hs. now rewrite Z.eqb_refl.
          -- destruct (A L p) as [K|[x K]]; [lia|now left|right]. exists x. rewrite Hs. destruct (Z.eqb_spec x t) as [->|]; [|exact K].
             apply ssl_has, (g_has s G) in K. congruence.
      + split; [now apply good_handles|]. intros L. now apply Hacc, A.
      + split; [|intros L; now elim (Hm L)].
        destruct (good_handles s _ G Hdest Kd) as [G1 G2 G3 G4 G5 G6]. split; cbn [to_handles to_ssl to_made to_freed set_handles] in *; auto.
        * intros x p Hx. destruct (G4 x p Hx) as [K1 K2]. split; [|exact K2]. rewrite nth_error_app1; [exact K1|]. apply nth_error_Some. congruence.
        * intros p n Hi. destruct (G6 p n Hi) as [fd K]. exists fd. rewrite nth_error_app1; [exact K|]. apply nth_error_Some. congruence.
    - pose proof (g_has s G other H2) as Ho. assert (N : t <> other) by congruence. destruct (move_gets (to_handles s) t other N) as [E1 E2].
      assert (Et : ssl_of t s = None).
      { destruct (ssl_of t s) eqn:E; [|reflexivity]. apply ssl_has, (g_has s G) in E. congruence. }
      destruct (good_take s t other (sfd_move t other (to_handles s)) G N Et H2) as [K1 K2]; auto.
      + apply hist_move; auto. apply G.
      + intros x N1 N2 _. now apply keeps_move.
      + apply move_has. auto.
      + apply move_has. auto.
    - unfold tls_assign. destruct (Z.eqb_spec t other) as [->|N]; [auto|].
      destruct (good_free s t G) as (F1 & F2 & F3 & F4 & F5 & F6 & F7). set (s1 := ssl_free t s) in *.
      rewrite F2. rewrite assign_is by exact N. set (h := sfd_close t (to_handles s)).
      assert (Hc : sound (to_handles s)) by auto.
      destruct (move_gets h t other N) as [E1 E2]. destruct (keeps_close (to_handles s) t other Hc ltac:(congruence)) as (Q1 & Q2 & Q3). fold h in Q1, Q2, Q3.
      destruct (good_take s1 t other (sfd_move t other h) F1 N F3) as [K1 K2]; try rewrite F2; auto.
      + unfold h. rewrite <- assign_is by exact N. apply hist_assign; [apply G|now apply (g_has s G)..].
      + intros x N1 N2 _. eapply keeps_trans; [apply (keeps_close _ t x Hc N1)|now apply keeps_move].
      + now rewrite E1, Q1.
      + apply move_has. auto.
      + apply move_has. auto.
    - unfold tls_destroy. destruct (good_free s t G) as (F1 & F2 & F3 & F4 & F5 & F6 & F7). set (s1 := ssl_free t s) in *. rewrite F2.
      set (s' := TlsObjects _ _ _ _).
      assert (Hc : sound (to_handles s)) by auto. pose proof F1 as [G1 G2 G3 G4 G5 G6].
      assert (Hs : forall x, ssl_of x s' = ssl_of x s1).
      { intros x. unfold ssl_of, s'. cbn [to_ssl]. rewrite mget_mdel. destruct (Z.eqb_spec x t) as [->|]; [|reflexivity]. symmetry. exact F3. }
      split; [split|].
      + apply hist_destroy; [apply G|now apply (g_has s G)].
      + intros x. unfold s'. cbn [to_ssl to_handles]. rewrite mget_mdel. destruct (Z.eqb_spec x t) as [->|N]; [easy|]. intros Hx.
        apply (keeps_destroy _ t x Hc N). rewrite <- F2. auto.
      + intros x y p. rewrite !Hs. apply G3.
      + intros x p. rewrite Hs. intros Hx. destruct (G4 x p Hx) as [K1 K2]. split; [|exact K2]. cbn [to_made to_handles s'].
        assert (N : x <> t) by congruence. destruct (keeps_destroy _ t x Hc N) as (A1 & A2 & _). rewrite A1, A2. now rewrite F2 in K1.
      + exact G5.
      + exact G6.
      + intros L p Hp. destruct (F7 (A L) p Hp) as [K|[x K]]; [now left|right]. exists x. now rewrite Hs.
  Qed.
  Lemma made_open lucky : forall s, tls_history k0 lucky s -> forall fd n, In (fd, n) (to_made s) -> 0 <= fd -> n <> None.
  Proof.
    assert (Hf : forall t s, to_made (ssl_free t s) = to_made s) by (intros t s; unfold ssl_free; now destruct (ssl_of t s)).
    induction 1 as [|s h fd H IH H1 H2 H3|s h H IH H1 H2|s h H IH H1 H2|s m t other H IH Hm H1 H2 H3|s t other H IH H1 H2|s t other H IH H1 H2|s t H IH H1];
      intros x n Hi Hx.
    - destruct Hi.
    - exact (IH x n Hi Hx).
    - exact (IH x n Hi Hx).
    - exact (IH x n Hi Hx).
    - unfold tls_make in Hi. destruct m; cbn [to_made set_handles] in Hi; [|exact (IH x n Hi Hx)|].
      + apply in_app_iff in Hi as [Hi|[[= <- <-]|[]]]; [exact (IH x n Hi Hx)|]. set (h := sfd_move t other (to_handles s)) in *.
        destruct (good_all lucky s H) as [G _].
        assert (K : sound h) by (apply (history_sound k0 Hk0), hist_move; auto; apply G).
        apply (owner_of h t) in Hx. apply (so_owned k0 h K) in Hx as (n & E & _). unfold open_under. congruence.
      + apply in_app_iff in Hi as [Hi|[[= <- <-]|[]]]; [exact (IH x n Hi Hx)|lia].
    - exact (IH x n Hi Hx).
    - unfold tls_assign in Hi. destruct (t =? other); cbn [set_ssl set_handles to_made] in Hi; [|rewrite Hf in Hi]; exact (IH x n Hi Hx).
    - unfold tls_destroy in Hi. cbn [to_made] in Hi. rewrite Hf in Hi. exact (IH x n Hi Hx).
  Qed.
End Life.
Lemma moved k0 lucky s t other : in_order k0 -> tls_history k0 lucky s -> mget other (to_ssl s) <> None ->
  let takes s' := ssl_of t s' = ssl_of other s /\ fd_of t (to_handles s') = fd_of other (to_handles s) /\
    ssl_of other s' = None /\ fd_of other (to_handles s') = -1 /\
    forall x, x <> t -> x <> other -> ssl_of x s' = ssl_of x s /\ fd_of x (to_handles s') = fd_of x (to_handles s) in
  (mget t (hd_fds (to_handles s)) = None -> takes (tls_move t other s)) /\
  (t <> other -> mget t (to_ssl s) <> None -> takes (tls_assign t other s)) /\
  tls_assign t t s = s.
Proof.
  intros Hk H Ho. cbv zeta. destruct (good_all k0 Hk lucky s H) as [G _].
  assert (Hs : forall x p q y s0, ssl_of y (set_ssl x p (set_ssl q (ssl_of other s0) s0)) =
    if y =? x then p else if y =? q then ssl_of other s0 else ssl_of y s0) by (intros; now rewrite !ssl_set).
  assert (R : forall a b, a <> b -> (a =? b) = false) by (intros a b Hab; now apply Z.eqb_neq).
  split; [|split].
  - intros Ht. assert (N : t <> other) by (intros ->; apply (g_has _ _ G) in Ho; congruence).
    unfold tls_move. cbv zeta. rewrite !Hs, !Z.eqb_refl, (R _ _ N). cbn [to_handles set_ssl set_handles]. unfold sfd_move.
    rewrite !fd_of_set, !Z.eqb_refl, (R _ _ N). repeat (split; [reflexivity|]). intros x Nt No.
    rewrite Hs, !fd_of_set, (R _ _ Nt), (R _ _ No). auto.
  - intros N Ht. unfold tls_assign. rewrite (R _ _ N). cbv zeta.
    assert (F : forall x, x <> t -> ssl_of x (ssl_free t s) = ssl_of x s).
    { intros x Nx. unfold ssl_free. destruct (ssl_of t s) eqn:E; [|reflexivity]. unfold ssl_of. cbn [to_ssl]. rewrite mget_mput, (R _ _ Nx). reflexivity. }
    assert (Fh : to_handles (ssl_free t s) = to_handles s) by (unfold ssl_free; now destruct (ssl_of t s)).
    rewrite !Hs, !Z.eqb_refl, (R _ _ N). cbn [to_handles set_ssl set_handles]. rewrite Fh, (assign_is _ _ _ N). unfold sfd_move.
    assert (C : forall x, x <> t -> fd_of x (sfd_close t (to_handles s)) = fd_of x (to_handles s)) by (intros; now apply close_fd).
    rewrite !fd_of_set, !Z.eqb_refl, (R _ _ N). split; [apply (F other); congruence|]. split; [apply C; congruence|]. repeat (split; [reflexivity|]).
    intros x Nt No. rewrite Hs, !fd_of_set, (R _ _ Nt), (R _ _ No). split; [apply (F x Nt)|apply C, Nt].
  - unfold tls_assign. now rewrite Z.eqb_refl.
Qed.
