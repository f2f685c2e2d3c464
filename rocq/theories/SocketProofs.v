(** Socket handles (SocketFd.v), transport results (Transport.v) and event masks (Poller.v). *)
From Verif Require Import Base BaseLemmas Http Conn Poller SocketFd Transport SpecServer ServerProofs.

(** ** Socket handles *)
Section Handles.
  Variable k0 : kernel.
  Hypothesis Hk0 : in_order k0.
  Notation fds s := (hd_fds s).
  Notation ker s := (hd_kernel s).
  (** Some handle owns the descriptor. *)
  Definition owner (s : handles) (h fd : Z) : Prop := mget h (fds s) = Some fd /\ 0 <= fd.
  Record sound (s : handles) : Prop := {
    so_unique : forall h h' fd, owner s h fd -> owner s h' fd -> h = h';
    so_before : forall fd n, mget fd (k_open k0) = Some n -> mget fd (k_open (ker s)) = Some n;
    so_open : forall fd n, mget fd (k_open (ker s)) = Some n ->
      mget fd (k_open k0) = Some n \/ (k_objects k0 <= n)%nat /\ exists h, owner s h fd;
    so_owned : forall h fd, owner s h fd -> exists n, mget fd (k_open (ker s)) = Some n /\ (k_objects k0 <= n < k_objects (ker s))%nat;
    so_object : forall fd fd' n, mget fd (k_open (ker s)) = Some n -> mget fd' (k_open (ker s)) = Some n -> fd = fd';
    so_made : (k_objects k0 <= k_objects (ker s))%nat;
    so_each : forall n, (k_objects k0 <= n < k_objects (ker s))%nat <->
      In (Some n) (k_closed (ker s)) \/ (k_objects k0 <= n)%nat /\ exists fd, mget fd (k_open (ker s)) = Some n;
    so_closed : forall n, In (Some n) (k_closed (ker s)) -> forall fd, mget fd (k_open (ker s)) <> Some n;
    so_once : NoDup (k_closed (ker s)) /\ ~ In None (k_closed (ker s)) }.

  Lemma sound_start : sound (Handles [] k0).
  Proof.
    destruct Hk0 as (K1 & K2 & K3 & K4). split; cbn [hd_fds hd_kernel]; try rewrite K4.
    - intros h h' fd [H _]. discriminate.
    - auto.
    - auto.
    - intros h fd [H _]. discriminate.
    - exact K2.
    - lia.
    - intros n. split; [lia|]. intros [[]|(Hn & fd & H)]. apply K1 in H. lia.
    - intros n [].
    - split; [constructor|easy].
  Qed.
  Lemma before s fd n : sound s -> mget fd (k_open k0) = Some n -> mget fd (k_open (ker s)) = Some n /\ (n < k_objects k0)%nat.
  Proof. intros H E. split; [now apply (so_before s H)|]. now apply (proj1 Hk0) in E. Qed.
  (** Ownership passes between handles. *)
  Lemma sound_pass s l : sound s -> (forall h h' fd, owner (Handles l (ker s)) h fd -> owner (Handles l (ker s)) h' fd -> h = h') ->
    (forall fd, (exists h, owner (Handles l (ker s)) h fd) <-> exists h, owner s h fd) -> sound (Handles l (ker s)).
  Proof.
    intros H Hu Ho. destruct H as [H1 Hb H2 H3 H4 H5 H6 H7 H8]. split; cbn [hd_kernel]; auto.
    - intros fd n K. apply H2 in K as [K|(K & h & K')]; [auto|right]. split; [exact K|]. apply Ho. eauto.
    - intros h fd K. assert (K' : exists h, owner s h fd) by (apply Ho; eauto). destruct K' as [h' K']. eauto.
  Qed.
  Lemma sound_obtain s h fd : sound s -> mget h (fds s) = None -> 0 <= fd -> mget fd (k_open (ker s)) = None -> sound (sfd_obtain h fd s).
  Proof.
    intros H Hh Hf Hn. pose proof H as [H1 Hb H2 H3 H4 H5 H6 H7 H8].
    assert (HO : forall x y, owner (sfd_obtain h fd s) x y <-> (x = h /\ y = fd) \/ owner s x y).
    { intros x y. unfold owner, sfd_obtain, set_fd. cbn [hd_fds]. rewrite mget_mput. destruct (Z.eqb_spec x h) as [->|N].
      - split; [intros [[= <-] _]; auto|]. intros [[_ ->]|[K _]]; [auto|congruence].
      - split; [auto|]. intros [[K _]|K]; [easy|exact K]. }
    assert (HX : forall x, mget x (k_open (ker (sfd_obtain h fd s))) = if x =? fd then Some (k_objects (ker s)) else mget x (k_open (ker s))).
    { intros x. apply mget_mput. }
    assert (HN : forall n x, mget x (k_open (ker s)) = Some n -> (n < k_objects (ker s))%nat).
    { intros n x K. destruct (Nat.lt_ge_cases n (k_objects k0)); [lia|]. assert (K' : (k_objects k0 <= n < k_objects (ker s))%nat) by (apply H6; eauto). lia. }
    assert (HF : forall x, ~ owner s x fd) by (intros x K; apply H3 in K as (n & K & _); congruence).
    assert (H0 : forall n, mget fd (k_open k0) <> Some n) by (intros n K; apply (before s) in K as [K _]; [congruence|exact H]).
    split.
    - intros a b y Ka Kb. apply HO in Ka, Kb. destruct Ka as [[-> ->]|Ka], Kb as [[-> E]|Kb]; eauto; try reflexivity; exfalso.
      + now apply HF in Kb.
      + subst y. now apply HF in Ka.
    - intros x n K. rewrite HX. destruct (Z.eqb_spec x fd) as [->|N]; [now apply H0 in K|auto].
    - intros x n. rewrite HX. destruct (Z.eqb_spec x fd) as [->|N].
      + intros [= <-]. right. split; [lia|]. exists h. apply HO. auto.
      + intros K. apply H2 in K as [K|(K & h' & K')]; [auto|right]. split; [exact K|]. exists h'. apply HO. auto.
    - intros x y K. rewrite HX. change (k_objects (ker (sfd_obtain h fd s))) with (S (k_objects (ker s))).
      apply HO in K as [[-> ->]|K].
      + rewrite Z.eqb_refl. eexists. split; [reflexivity|]. lia.
      + pose proof K as K'. apply H3 in K as (n & Q1 & Q2). destruct (Z.eqb_spec y fd) as [->|N]; [now apply HF in K'|]. exists n. split; [exact Q1|lia].
    - intros x y n. rewrite !HX. destruct (Z.eqb_spec x fd), (Z.eqb_spec y fd); try congruence; intros K K'.
      + injection K as <-. apply HN in K'. lia.
      + injection K' as <-. apply HN in K. lia.
      + eauto.
    - change (k_objects (ker (sfd_obtain h fd s))) with (S (k_objects (ker s))). lia.
    - intros n. change (k_objects (ker (sfd_obtain h fd s))) with (S (k_objects (ker s))). change (k_closed (ker (sfd_obtain h fd s))) with (k_closed (ker s)). split.
      + intros K. destruct (Nat.eq_dec n (k_objects (ker s))) as [->|N].
        * right. split; [lia|]. exists fd. now rewrite HX, Z.eqb_refl.
        * assert (K' : (k_objects k0 <= n < k_objects (ker s))%nat) by lia. apply H6 in K' as [K'|(K1 & x & K2)]; [auto|right]. split; [exact K1|]. exists x.
          rewrite HX. destruct (Z.eqb_spec x fd) as [->|]; [congruence|exact K2].
      + intros [K|(K1 & x & K2)]; [assert (K' : (k_objects k0 <= n < k_objects (ker s))%nat) by (apply H6; auto); lia|].
        rewrite HX in K2. destruct (x =? fd); [injection K2 as <-; lia|]. apply HN in K2. lia.
    - intros n K x. change (k_closed (ker (sfd_obtain h fd s))) with (k_closed (ker s)) in K. rewrite HX. destruct (x =? fd); [|now apply H7].
      intros [= <-]. assert (K' : (k_objects k0 <= k_objects (ker s) < k_objects (ker s))%nat) by (apply H6; auto). lia.
    - exact H8.
  Qed.
  Lemma sound_empty s h : sound s -> mget h (fds s) = None \/ (exists fd, mget h (fds s) = Some fd /\ fd < 0) -> sound (sfd_empty h s).
  Proof.
    intros H Hh. unfold sfd_empty, set_fd.
    assert (HO : forall x y, owner (Handles (mput h (-1) (fds s)) (ker s)) x y <-> owner s x y).
    { intros x y. unfold owner. cbn [hd_fds]. rewrite mget_mput. destruct (Z.eqb_spec x h) as [->|N]; [|reflexivity].
      split; [intros [[= <-] K]; lia|]. intros [K K']. destruct Hh as [Hh|(fd & Hh & Hl)]; [congruence|]. rewrite Hh in K. injection K as ->. lia. }
    apply sound_pass; [exact H| |].
    - intros a b fd Ka Kb. apply HO in Ka, Kb. exact (so_unique s H a b fd Ka Kb).
    - intros fd. split; intros [x K]; exists x; now apply HO.
  Qed.
  (** What [other] owned is [h]'s now; [h] owned nothing. *)
  Lemma sound_hand_over s h other : sound s -> h <> other -> (forall fd, ~ owner s h fd) ->
    sound (set_fd other (-1) (set_fd h (fd_of other s) s)).
  Proof.
    intros H N Hh. unfold set_fd. cbn [hd_fds hd_kernel]. set (l := mput other (-1) (mput h (fd_of other s) (fds s))).
    assert (HO : forall x y, owner (Handles l (ker s)) x y <-> (x = h /\ owner s other y) \/ (x <> h /\ x <> other /\ owner s x y)).
    { intros x y. unfold owner, l. cbn [hd_fds]. rewrite !mget_mput. destruct (Z.eqb_spec x other) as [->|N1].
      - split; [intros [[= <-] K]; lia|]. intros [[K _]|(_ & K & _)]; congruence.
      - destruct (Z.eqb_spec x h) as [->|N2]; [|split; [auto|intros [[K _]|(_ & _ & K)]; [easy|exact K]]].
        unfold fd_of. split.
        + intros [[= <-] K]. left. split; [reflexivity|]. destruct (mget other (fds s)); [auto|lia].
        + intros [(_ & K & K')|(K & _)]; [rewrite K; auto|easy]. }
    apply sound_pass; [exact H| |].
    - intros a b fd Ka Kb. apply HO in Ka as [[-> Ka]|(Na & Na' & Ka)], Kb as [[-> Kb]|(Nb & Nb' & Kb)]; try reflexivity.
      + exfalso. apply Nb'. exact (so_unique s H b other fd Kb Ka).
      + exfalso. apply Na'. exact (so_unique s H a other fd Ka Kb).
      + exact (so_unique s H a b fd Ka Kb).
    - intros fd. split; intros [x K].
      + apply HO in K as [[_ K]|(_ & _ & K)]; eauto.
      + destruct (Z.eq_dec x other) as [->|N1]; [exists h; apply HO; auto|]. exists x. apply HO. right. split; [|auto]. intros ->. now apply Hh in K.
  Qed.
  Lemma sound_close s h : sound s -> sound (sfd_close h s) /\ (forall fd, ~ owner (sfd_close h s) h fd) /\
    (forall x, x <> h -> mget x (fds (sfd_close h s)) = mget x (fds s)) /\ (mget h (fds s) <> None -> mget h (fds (sfd_close h s)) <> None).
  Proof.
    intros H. unfold sfd_close. rewrite Z.geb_leb. destruct (Z.leb_spec 0 (fd_of h s)) as [Hf|Hf].
    2:{ split; [exact H|]. split; [|auto]. intros fd [K K']. unfold fd_of in Hf. rewrite K in Hf. lia. }
    set (fd := fd_of h s) in *. assert (Ho : owner s h fd).
    { unfold fd, fd_of in *. unfold owner. destruct (mget h (fds s)); [auto|lia]. }
    clearbody fd. pose proof H as [H1 Hb H2 H3 H4 H5 H6 H7 H8]. destruct (H3 h fd Ho) as (n & Hn & Hr).
    unfold set_fd. cbn [hd_fds hd_kernel]. set (s' := Handles _ _).
    assert (HO : forall x y, owner s' x y <-> owner s x y /\ x <> h).
    { intros x y. unfold owner, s'. cbn [hd_fds]. rewrite mget_mput. destruct (Z.eqb_spec x h) as [->|N]; [|tauto]. split; [intros [[= <-] K]; lia|tauto]. }
    assert (HX : forall x, mget x (k_open (ker s')) = if x =? fd then None else mget x (k_open (ker s))).
    { intros x. unfold s', k_close. cbn [hd_kernel]. rewrite Hn. cbn [k_open]. apply mget_mdel. }
    assert (HC : k_closed (ker s') = k_closed (ker s) ++ [Some n] /\ k_objects (ker s') = k_objects (ker s)).
    { unfold s', k_close. cbn [hd_kernel]. rewrite Hn. auto. }
    destruct HC as [HC HB].
    assert (H0 : forall n', mget fd (k_open k0) <> Some n').
    { intros n' K. apply (before s) in K as [K K']; [|exact H]. rewrite Hn in K. injection K as ->. lia. }
    split; [|split; [|split]].
    - split.
      + intros a b y Ka Kb. apply HO in Ka as [Ka _], Kb as [Kb _]. eauto.
      + intros x n' K. rewrite HX. destruct (Z.eqb_spec x fd) as [->|N]; [now apply H0 in K|auto].
      + intros x n'. rewrite HX. destruct (Z.eqb_spec x fd) as [->|N]; [discriminate|]. intros K.
        apply H2 in K as [K|(K & h' & K')]; [auto|right]. split; [exact K|]. exists h'.
        apply HO. split; [exact K'|]. intros ->. destruct K' as [K' _], Ho as [Ho _]. congruence.
      + intros x y K. apply HO in K as [K Nx]. rewrite HX, HB. destruct (Z.eqb_spec y fd) as [->|N]; [exfalso; apply Nx; eauto|eauto].
      + intros x y n'. rewrite !HX. destruct (x =? fd), (y =? fd); try discriminate. eauto.
      + now rewrite HB.
      + intros n'. rewrite HB, HC, in_app_iff. cbn [In]. rewrite (H6 n'). split.
        * intros [K|(K1 & x & K2)]; [auto|]. destruct (Z.eq_dec x fd) as [->|N]; [left; right; left; congruence|]. right. split; [exact K1|]. exists x.
          rewrite HX. apply Z.eqb_neq in N. now rewrite N.
        * intros [[K|[[= <-]|[]]]|(K1 & x & K2)]; [auto| |].
          -- right. split; [lia|eauto].
          -- right. split; [exact K1|]. exists x. rewrite HX in K2. now destruct (x =? fd).
      + intros n' K x. rewrite HC, in_app_iff in K. cbn [In] in K. rewrite HX. destruct (Z.eqb_spec x fd) as [->|N]; [discriminate|].
        destruct K as [K|[[= <-]|[]]]; [now apply H7|]. intros K. apply N. eauto.
      + rewrite HC. split.
        * apply nodup_snoc; [apply H8|]. intros K. now apply (H7 n K fd).
        * rewrite in_app_iff. intros [K|[K|[]]]; [now apply H8 in K|discriminate].
    - intros y K. apply HO in K as [_ K]. now apply K.
    - intros x N. unfold s'. cbn [hd_fds]. rewrite mget_mput. apply Z.eqb_neq in N. now rewrite N.
    - intros _. unfold s'. cbn [hd_fds]. rewrite mget_mput, Z.eqb_refl. discriminate.
  Qed.
  Lemma sound_forget s h : sound s -> (forall fd, ~ owner s h fd) -> sound (Handles (mdel h (fds s)) (ker s)).
  Proof.
    intros H Hh.
    assert (HO : forall x y, owner (Handles (mdel h (fds s)) (ker s)) x y <-> owner s x y).
    { intros x y. unfold owner. cbn [hd_fds]. rewrite mget_mdel. destruct (Z.eqb_spec x h) as [->|N]; [|reflexivity]. split; [easy|].
      intros K. now apply Hh in K. }
    apply sound_pass; [exact H| |].
    - intros a b fd Ka Kb. apply HO in Ka, Kb. exact (so_unique s H a b fd Ka Kb).
    - intros fd. split; intros [x K]; exists x; now apply HO.
  Qed.
  Lemma history_sound s : history k0 s -> sound s.
  Proof.
    induction 1 as [|s h fd H IH Hh Hf Ho|s h H IH Hh|s h other H IH Hh Hot|s h other H IH Hh Hot|s h H IH Hh|s h H IH Hh].
    - apply sound_start.
    - now apply sound_obtain.
    - apply sound_empty; auto.
    - apply sound_hand_over; [exact IH|congruence|]. intros fd [K _]. congruence.
    - unfold sfd_assign. destruct (Z.eqb_spec h other) as [->|N]; [exact IH|]. destruct (sound_close s h IH) as (S1 & S2 & S3 & S4).
      apply sound_hand_over; assumption.
    - now apply sound_close.
    - unfold sfd_destroy. destruct (sound_close s h IH) as (S1 & S2 & _). now apply sound_forget.
  Qed.
End Handles.

(** ** Masks *)
Lemma has_bit m k : 0 <= k -> negb (Z.land m (2 ^ k) =? 0) = Z.testbit m k.
Proof.
  intros H. destruct (Z.testbit m k) eqn:E.
  - apply negb_true_iff, Z.eqb_neq. intros K. assert (X : Z.testbit (Z.land m (2 ^ k)) k = true) by now rewrite Z.land_spec, E, Z.pow2_bits_true.
    rewrite K, Z.bits_0 in X. discriminate.
  - apply negb_false_iff, Z.eqb_eq. apply Z.bits_inj'. intros i Hi. rewrite Z.bits_0, Z.land_spec. destruct (Z.eq_dec i k) as [->|N]; [now rewrite E|].
    rewrite Z.pow2_bits_false by congruence. apply andb_false_r.
Qed.
Lemma bit0 m : negb (Z.land m 1 =? 0) = Z.testbit m 0. Proof. exact (has_bit m 0 ltac:(lia)). Qed.
Lemma bit1 m : negb (Z.land m 2 =? 0) = Z.testbit m 1. Proof. exact (has_bit m 1 ltac:(lia)). Qed.
Lemma bit2 m : negb (Z.land m 4 =? 0) = Z.testbit m 2. Proof. exact (has_bit m 2 ltac:(lia)). Qed.
Lemma bit3 m : negb (Z.land m 8 =? 0) = Z.testbit m 3. Proof. exact (has_bit m 3 ltac:(lia)). Qed.
Lemma bit4 m : negb (Z.land m 16 =? 0) = Z.testbit m 4. Proof. exact (has_bit m 4 ltac:(lia)). Qed.

(** ** Lengths *)
Lemma to_int_small n : - 2147483648 <= n < 2147483648 -> to_int n = n.
Proof. intros H. unfold to_int. rewrite Z.mod_small; lia. Qed.
Lemma to_int_large n : 2147483648 <= n < 4294967296 -> to_int n < 0.
Proof.
  intros H. unfold to_int. replace (n + 2147483648) with (n - 2147483648 + 1 * 4294967296) by lia. rewrite Z.mod_add, Z.mod_small; lia.
Qed.
