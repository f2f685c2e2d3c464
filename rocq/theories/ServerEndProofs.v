(** Proofs about the end of a server. *)
From Verif Require Import Base BaseLemmas Huffman Http Conn SpecConn ConnLemmas ConnBasic ConnTerm Poller Server SpecServer ServerProofs
  ServerReach AccessLog SpecApp AppProofs FilesServe Messages SpecDebug ServerMessages SpecServerMessages ServerMessagesProofs ServerAgain AgainProofs
  ServerTrace SpecServerTrace ServerTraceProofs ServerEnd.
From Coq Require Import Permutation.

Lemma nodup_app {A} (l1 l2 : list A) : NoDup l1 -> NoDup l2 -> (forall x, In x l1 -> ~ In x l2) -> NoDup (l1 ++ l2).
Proof.
  induction 1 as [|x l H _ IH]; intros H2 D; [exact H2|]. cbn. constructor.
  - intros K. apply in_app_or in K as [K|K]; [easy|]. apply (D x); [now left|exact K].
  - apply IH; [exact H2|]. intros y K. apply D. now right.
Qed.
Lemma nodup_map {A B} (f : A -> B) (l : list A) : (forall x y, In x l -> In y l -> f x = f y -> x = y) -> NoDup l -> NoDup (map f l).
Proof.
  intros H N. induction N as [|x l Hx _ IH]; [constructor|]. cbn [map]. constructor.
  - intros K. apply in_map_iff in K as (y & E & K). rewrite (H y x) in K; [easy|now right|now left|exact E].
  - apply IH. intros a b Ha Hb. apply H; now right.
Qed.

Section Destroy.
  Variable tls : bool.
  Variable W : Type.
  Notation conns s := (sv_conns W s).
  Notation ker s := (sv_kernel W s).
  Lemma erase_open fd e s : conn_at W s fd e -> mget fd (k_open (ker s)) = Some (e_socket e) ->
    conns (erase W fd s) = mdel fd (conns s) /\ k_open (ker (erase W fd s)) = mdel fd (k_open (ker s)) /\
    k_closed (ker (erase W fd s)) = k_closed (ker s) ++ [Some (e_socket e)] /\ k_objects (ker (erase W fd s)) = k_objects (ker s) /\
    sv_gone W (erase W fd s) = sv_gone W s ++ [e] /\ k_watch (ker (erase W fd s)) = mdel fd (k_watch (ker s)).
  Proof. intros C O. unfold erase. unfold conn_at in C. rewrite C. unfold k_close. cbn [sv_kernel sv_conns sv_gone]. rewrite O. cbn [k_open k_closed k_objects k_watch]. auto 6. Qed.
  Lemma destroy_spec order : forall s, NoDup order -> (forall fd, In fd order <-> exists e, conn_at W s fd e) ->
    (forall fd e, conn_at W s fd e -> mget fd (k_open (ker s)) = Some (e_socket e)) ->
    let s' := destroy W order s in
    (forall fd, mget fd (conns s') = None) /\
    (forall fd, In fd order -> mget fd (k_open (ker s')) = None) /\
    (forall fd, ~ In fd order -> mget fd (k_open (ker s')) = mget fd (k_open (ker s))) /\
    k_closed (ker s') = k_closed (ker s) ++ map (fun fd => mget fd (k_open (ker s))) order /\
    k_objects (ker s') = k_objects (ker s) /\ (k_watch (ker s) = [] -> k_watch (ker s') = []) /\
    (forall e, In e (sv_gone W s') <-> In e (sv_gone W s) \/ exists fd, conn_at W s fd e) /\
    end_trace tls W order s = flat_map (destroy_trace tls) order.
  Proof.
    induction order as [|fd order IH]; intros s N I O; cbn [destroy fold_left end_trace flat_map map].
    - assert (X : forall fd, mget fd (conns s) = None).
      { intros fd. destruct (mget fd (conns s)) as [e|] eqn:E; [|reflexivity]. destruct (proj2 (I fd) (ex_intro _ e E)). }
      split; [exact X|]. split; [easy|]. split; [reflexivity|]. rewrite app_nil_r. split; [reflexivity|]. split; [reflexivity|]. split; [auto|]. split; [|reflexivity].
      intros e. split; [auto|]. intros [K|(fd & K)]; [exact K|]. unfold conn_at in K. rewrite X in K. discriminate.
    - inversion N as [|? ? N1 N2]; subst. destruct (proj1 (I fd) (or_introl eq_refl)) as [e C].
      destruct (erase_open fd e s C (O fd e C)) as (E1 & E2 & E3 & E4 & E5 & E6).
      assert (HC : forall x b, conn_at W (erase W fd s) x b <-> x <> fd /\ conn_at W s x b).
      { intros x b. unfold conn_at. rewrite E1, mget_mdel. destruct (Z.eqb_spec x fd); split; intros K; easy. }
      destruct (IH (erase W fd s) N2) as (I1 & I2 & I3 & I4 & I5 & I6 & I7 & I8).
      { intros x. split.
        - intros K. destruct (proj1 (I x) (or_intror K)) as [b B]. exists b. apply HC. split; [|exact B]. intros ->. easy.
        - intros [b B]. apply HC in B as [B1 B2]. destruct (proj2 (I x) (ex_intro _ b B2)) as [K|K]; [congruence|exact K]. }
      { intros x b B. apply HC in B as [B1 B2]. rewrite E2, mget_mdel. apply Z.eqb_neq in B1. rewrite B1. now apply O. }
      cbv zeta. fold (destroy W order (erase W fd s)). split; [exact I1|]. split; [|split; [|split; [|split; [|split; [|split]]]]].
      + intros x [<-|K]; [|now apply I2]. rewrite I3 by exact N1. rewrite E2, mget_mdel, Z.eqb_refl. reflexivity.
      + intros x K. rewrite I3 by (intros K'; apply K; now right). rewrite E2, mget_mdel. destruct (Z.eqb_spec x fd) as [->|_]; [|reflexivity]. exfalso. apply K. now left.
      + rewrite I4, E3, (O fd e C), <- app_assoc. cbn [app]. do 2 f_equal. apply map_ext_in. intros x K. rewrite E2, mget_mdel.
        destruct (Z.eqb_spec x fd) as [->|_]; [easy|reflexivity].
      + now rewrite I5, E4.
      + intros K. apply I6. now rewrite E6, K.
      + intros b. rewrite I7, E5, in_app_iff. split.
        * intros [[K|[K|[]]]|(x & K)]; [now left|subst b; right; now exists fd|]. apply HC in K as [_ K]. right. now exists x.
        * intros [K|(x & K)]; [auto|]. destruct (Z.eq_dec x fd) as [->|Nx].
          -- left. right. left. unfold conn_at in *. congruence.
          -- right. exists x. now apply HC.
      + rewrite I8. f_equal. unfold erase_trace. unfold conn_at in C. now rewrite C.
  Qed.
End Destroy.

(** ** The state it starts from *)
Section Ended.
  Variable linux : bool.
  Variable listener : Z.
  Variable W : Type.
  Variable app : request -> W -> W * app_answer.
  Variable cs : bool.
  Variable T : tree.
  Variable k0 : kernel.
  Variable w0 : W.
  Hypothesis Hk0 : in_order k0.
  Hypothesis Hl0 : 0 <= listener /\ mget listener (k_open k0) = None.
  Notation good := (good linux listener W app cs T k0 w0).
  Notation ker s := (sv_kernel W s).
  Lemma left_good a s : good s -> handle_incoming_connection linux W a s = Throw -> good (left_by W a s).
  Proof.
    intros G E. unfold handle_incoming_connection, establish_conn, try_accept, left_by in *. destruct (ar_accept a) as [x nb| |]; try exact G.
    destruct (Z.ltb_spec x 0) as [Hx|Hx]; cbn [orb obind] in *; [destruct (negb _); discriminate E|].
    destruct (mhas x (k_open (ker s))) eqn:M; cbn [obind] in *; [destruct (negb _); discriminate E|]. apply mhas_false in M.
    apply (overflow_good linux listener W app cs T k0 w0); assumption.
  Qed.
  Lemma left_events_good evs : forall s, good s -> none_discarded W s -> Forall around_ok evs ->
    (exists s', handle_events linux listener W app cs T evs s = Ret s') \/ handle_events linux listener W app cs T evs s = Throw ->
    good (left_events W linux listener app cs T evs s).
  Proof.
    induction evs as [|[fd [ev a]] evs IH]; intros s G N Ha E; [exact G|]. cbn [handle_events left_events] in *.
    apply Forall_cons_iff in Ha as [Ha Ha']. destruct (fd =? listener).
    - destruct (handle_incoming_connection linux W a s) as [s1| | |] eqn:E1; cbn [obind] in E; try (destruct E as [[s' E]|E]; discriminate E).
      + apply IH; [exact (incoming_good _ _ _ _ _ _ _ _ Hl0 _ _ _ G E1)|exact (incoming_none _ _ app w0 _ _ _ N E1)|exact Ha'|exact E].
      + now apply left_good.
    - destruct (handle_connection_events linux W app cs T fd ev a s) as [s1| | |] eqn:E1; cbn [obind] in E; try (destruct E as [[s' E]|E]; discriminate E).
      + destruct (events_good _ _ _ _ _ _ _ _ Hl0 _ _ _ _ _ G N Ha E1) as [G1 N1]. now apply IH.
      + exact G.
  Qed.
  Lemma left_iterate_good it s : good s -> none_discarded W s -> iteration_ok it ->
    iterate linux listener W app cs T it s = Throw -> good (left_iterate W linux listener app cs T it s).
  Proof.
    intros G N Hok E. pose proof (batch_spec linux listener W app cs T k0 w0 Hl0 it s G N) as (B1 & B2 & _ & _ & B5). specialize (B5 Hok). unfold batch in B1, B2, B5.
    unfold iterate, left_iterate in *. set (s1 := reap_idle_connections linux W (it_clock it) s) in *.
    destruct (poller_poll linux (it_wait it) (sv_poller W s1) (ker s1)) as [events p]. cbn [fst snd] in *. destruct events as [evs|x]; cbn [obind] in E; [|discriminate E].
    apply left_events_good; [exact B1|exact B2|exact B5|]. destruct (handle_events linux listener W app cs T evs _) as [s2| | |]; try discriminate E. now right.
  Qed.
  Lemma left_loop_good its : forall s, good s -> none_discarded W s -> Forall iteration_ok its ->
    (exists x, loop linux listener W app cs T its s = Ret x) \/ loop linux listener W app cs T its s = Throw ->
    good (left_loop W linux listener app cs T its s).
  Proof.
    induction its as [|it its IH]; intros s G N Hok E; cbn [loop left_loop] in *.
    - now destruct (sv_stop W s).
    - destruct (sv_stop W s); [exact G|]. apply Forall_cons_iff in Hok as [Hok Hok'].
      destruct (iterate linux listener W app cs T it s) as [s1| | |] eqn:E1; cbn [obind] in E; try (destruct E as [[s' E]|E]; discriminate E).
      + destruct (iterate_good _ _ _ _ _ _ _ _ Hl0 _ _ _ G N Hok E1) as [G1 N1]. now apply IH.
      + now apply left_iterate_good.
  Qed.
  Lemma left_loop_ret its : forall s b s', loop linux listener W app cs T its s = Ret (b, s') -> left_loop W linux listener app cs T its s = s'.
  Proof using Type.
    clear Hk0 Hl0. induction its as [|it its IH]; intros s b s' E; cbn [loop left_loop] in *.
    - destruct (sv_stop W s); now injection E as _ <-.
    - destruct (sv_stop W s); [now injection E as _ <-|]. destruct (iterate linux listener W app cs T it s) as [s1| | |] eqn:E1; cbn [obind] in E; try discriminate E. exact (IH _ _ _ E).
  Qed.
  Lemma finished s : good s ->
    let s' := finish W listener s in
    (forall fd n, mget fd (k_open (ker s')) = Some n <-> mget fd (k_open k0) = Some n \/ exists e, conn_at W s fd e /\ e_socket e = n) /\
    k_closed (ker s') = k_closed (ker s) ++ [Some (k_objects k0)] /\ k_objects (ker s') = k_objects (ker s) /\ k_watch (ker s') = [].
  Proof.
    intros G. destruct (g_desc _ _ _ _ _ _ _ _ _ G) as [D1 D2]. cbn [finish sv_kernel]. unfold k_close. cbn [k_open].
    assert (E : mget listener (k_open (ker s)) = Some (k_objects k0)) by (apply D2; auto). rewrite E. cbn [k_open k_closed k_objects k_watch].
    split; [|now repeat split]. intros fd n. rewrite mget_mdel. destruct (Z.eqb_spec fd listener) as [->|N].
    - split; [discriminate|]. intros [K|(e & K & _)]; [destruct Hl0; congruence|]. now apply D1 in K as (_ & K & _).
    - rewrite D2. split; [intros [K|[[K _]|K]]; auto; easy|intros [K|K]; auto].
  Qed.
  Lemma keys_perm s order : good s -> Permutation order (map fst (sv_conns W s)) -> NoDup order /\ forall fd, In fd order <-> exists e, conn_at W s fd e.
  Proof.
    intros G P. destruct (g_limit _ _ _ _ _ _ _ _ _ G) as (_ & M & _). split; [exact (Permutation_NoDup (Permutation_sym P) M)|].
    intros fd. split.
    - intros K. apply (Permutation_in _ P), in_map_iff in K as ([x e] & <- & K). exists e. now apply (mget_entry _ M).
    - intros [e K]. apply (mget_entry _ M) in K. apply (Permutation_in _ (Permutation_sym P)), in_map_iff. now exists (fd, e).
  Qed.
  Lemma given_back s order : good s -> Permutation order (map fst (sv_conns W s)) ->
    let s' := destroy W order (finish W listener s) in
    (forall fd, mget fd (k_open (ker s')) = mget fd (k_open k0)) /\ NoDup (k_closed (ker s')) /\
    (forall x, In x (k_closed (ker s')) <-> exists n, x = Some n /\ (k_objects k0 <= n < k_objects (ker s'))%nat) /\
    k_objects (ker s') = k_objects (ker s) /\ k_watch (ker s') = [] /\
    (forall e, In e (sv_gone W s') <-> In e (sv_gone W s) \/ exists fd, conn_at W s fd e).
  Proof.
    intros G P. destruct (keys_perm s order G P) as [N I]. destruct (finished s G) as (F1 & F2 & F3 & F4).
    destruct (destroy_spec true W order (finish W listener s) N I) as (_ & D2 & D3 & D4 & D5 & D6 & D7 & _).
    { intros fd e C. apply F1. right. exists e. now split. }
    destruct (g_sock _ _ _ _ _ _ _ _ _ G) as (S1 & S2 & S3 & S4 & S5 & S6). destruct (g_desc _ _ _ _ _ _ _ _ _ G) as [G1 _]. pose proof (g_objects _ _ _ _ _ _ _ _ _ G) as GO.
    unfold accepted in S1. cbv zeta. rewrite D4, D5, F2, F3.
    assert (IM : forall x, In x (map (fun fd => mget fd (k_open (ker (finish W listener s)))) order) <-> exists fd e, conn_at W s fd e /\ x = Some (e_socket e)).
    { intros x. rewrite in_map_iff. split.
      - intros (fd & <- & K). apply I in K as [e C]. exists fd, e. split; [exact C|]. apply F1. right. now exists e.
      - intros (fd & e & C & ->). exists fd. split; [|apply I; now exists e]. apply F1. right. now exists e. }
    split; [|split; [|split; [|split; [reflexivity|split; [exact (D6 F4)|exact D7]]]]].
    - intros fd. destruct (in_dec Z.eq_dec fd order) as [K|K].
      + rewrite (D2 fd K). apply I in K as [e C]. apply G1 in C as (_ & _ & C). now rewrite C.
      + rewrite (D3 fd K). destruct (mget fd (k_open k0)) as [n|] eqn:E; [apply F1; now left|].
        destruct (mget fd (k_open (ker (finish W listener s)))) as [n|] eqn:E'; [|reflexivity]. apply F1 in E' as [E'|(e & C & _)]; [congruence|].
        exfalso. apply K, I. now exists e.
    - apply nodup_app.
      + apply nodup_snoc; [exact S4|]. intros K. assert (X : (k_objects k0 < k_objects k0 < k_objects (ker s))%nat) by (apply S1; now right). lia.
      + apply nodup_map; [|exact N].
        intros x y Kx Ky E. apply I in Kx as [ex Cx]. apply I in Ky as [ey Cy].
        rewrite (proj2 (F1 x (e_socket ex)) (or_intror (ex_intro _ ex (conj Cx eq_refl)))), (proj2 (F1 y (e_socket ey)) (or_intror (ex_intro _ ey (conj Cy eq_refl)))) in E.
        injection E as E. exact (S3 x ex y ey Cx Cy E).
      + intros x K1 K2. apply IM in K2 as (fd & e & C & ->). apply in_app_or in K1 as [K1|[K1|[]]]; [exact (S2 fd e C K1)|].
        injection K1 as K1. assert (X : (k_objects k0 < e_socket e < k_objects (ker s))%nat) by (apply S1; left; now exists fd, e). lia.
    - intros x. rewrite !in_app_iff, IM. split.
      + intros [[K|[K|[]]]|(fd & e & C & ->)].
        * destruct x as [n|]; [|now apply S5 in K]. exists n. split; [reflexivity|]. assert (X : (k_objects k0 < n < k_objects (ker s))%nat) by (apply S1; now right). lia.
        * exists (k_objects k0). split; [easy|lia].
        * exists (e_socket e). split; [reflexivity|]. assert (X : (k_objects k0 < e_socket e < k_objects (ker s))%nat) by (apply S1; left; now exists fd, e). lia.
      + intros (n & -> & L). destruct (Nat.eq_dec n (k_objects k0)) as [->|Ne]; [left; right; now left|].
        assert (X : (k_objects k0 < n < k_objects (ker s))%nat) by lia. apply S1 in X as [(fd & e & C & <-)|K]; [right; now exists fd, e|now left; left].
  Qed.
  Lemma end_lines tls s order : good s -> Permutation order (map fst (sv_conns W s)) ->
    end_trace tls W order (finish W listener s) = flat_map (destroy_trace tls) order /\ Forall (fun fd => 0 <= fd) order /\
    lenZ order = lenZ (sv_conns W s).
  Proof.
    intros G P. destruct (keys_perm s order G P) as [N I]. destruct (finished s G) as (F1 & _).
    destruct (destroy_spec tls W order (finish W listener s) N I) as (_ & _ & _ & _ & _ & _ & _ & D).
    { intros fd e C. apply F1. right. exists e. now split. }
    split; [exact D|]. split.
    - apply Forall_forall. intros fd K. apply I in K as [e C]. now apply (g_desc _ _ _ _ _ _ _ _ _ G) in C.
    - unfold lenZ. now rewrite (Permutation_length P), map_length.
  Qed.
End Ended.

(** ** The connections told of are those there are and those that are no more *)
Section News.
  Variable v : voice.
  Variable linux : bool.
  Variable listener : Z.
  Variable tls : bool.
  Variable W : Type.
  Variable app : request -> W -> W * app_answer.
  Variable cs : bool.
  Variable T : tree.
  Variable k0 : kernel.
  Variable w0 : W.
  Hypothesis Hk0 : in_order k0.
  Hypothesis Hl0 : 0 <= listener /\ mget listener (k_open k0) = None.
  Notation good := (good linux listener W app cs T k0 w0).
  Notation conns s := (sv_conns W s).
  Notation ker s := (sv_kernel W s).
  Notation total s := (lenZ (sv_conns W s) + lenZ (sv_gone W s)).
  Definition old (m : message) : Prop := tells_of_new m = false.
  Lemma news_app a b : news (a ++ b) = news a + news b.
  Proof using Type. clear Hk0 Hl0. unfold news. now rewrite filter_app, lenZ_app. Qed.
  Lemma old_news l : Forall old l -> news l = 0.
  Proof using Type. clear Hk0 Hl0. unfold news. induction 1 as [|m l H _ IH]; [reflexivity|]. cbn [filter]. unfold old in H. now rewrite H. Qed.
  Lemma still_old l : Forall still l -> Forall old l.
  Proof using Type. clear Hk0 Hl0. apply Forall_impl. intros m K. apply K. Qed.
  Lemma destroy_old fd : Forall old (destroy_trace tls fd).
  Proof using Type.
    clear Hk0 Hl0. unfold destroy_trace, closing_trace. apply Forall_app. split; [destruct tls|destruct (fd >=? 0)]; repeat constructor.
  Qed.
  Lemma erase_old fd s : Forall old (erase_trace tls W fd s).
  Proof using Type. clear Hk0 Hl0. unfold erase_trace. destruct (mget _ _); [apply destroy_old|constructor]. Qed.
  Lemma event_old fd ev a s : Forall old (event_trace v linux tls W app cs T fd ev a s).
  Proof using Type.
    clear Hk0 Hl0. unfold event_trace. repeat match goal with |- context [match ?x with _ => _ end] => destruct x end; rewrite ?Forall_app;
      repeat match goal with |- _ /\ _ => split end;
      first [apply erase_old|apply still_old; first [apply set_still|apply remove_still]|repeat constructor].
  Qed.
  Lemma dropped_total fd e s s' : good s -> conn_at W s fd e -> dropped W fd e s s' -> total s' = total s.
  Proof. intros G C D. destruct (dropped_counts linux listener W app cs T k0 w0 fd e s s' G C D) as (-> & _ & ->). lia. Qed.
  Lemma set_total ok fd ev s : total (set linux W ok fd ev s) = total s.
  Proof using Type. reflexivity. Qed.
  Lemma event_total fd ev a s s' : good s -> none_discarded W s -> scripts_ok (ar_scripts a) ->
    handle_connection_events linux W app cs T fd ev a s = Ret s' -> total s' = total s.
  Proof.
    intros G N Ar E. apply events_cases in E as [->|(e & C & [->|(s1 & r & c & tr & w & H1 & Ep & ->)])]; [reflexivity| |].
    - exact (dropped_total _ _ _ _ G C (drop_erase_remove linux W fd e s C (good_open _ _ _ _ _ _ _ _ Hl0 _ _ _ G C))).
    - assert (G1 : good s1) by (destruct H1 as [->| ->]; [exact G|apply set_good; [exact Hl0|exact G|right; now exists e]]).
      assert (C1 : conns s1 = conns s) by (destruct H1 as [->| ->]; reflexivity).
      assert (B1 : total s1 = total s) by (destruct H1 as [->| ->]; reflexivity).
      assert (Hc1 : conn_at W s1 fd e) by (unfold conn_at; now rewrite C1).
      cbv zeta. set (e' := Entry (e_socket e) (e_born e) c (Some r) (e_trace e ++ tr)). set (s2 := set_world W w (set_conns W (mput fd e' (conns s1)) s1)).
      assert (G2 : good s2).
      { eapply updated_good; [exact Hl0|exact G1|exact Hc1|reflexivity|]. unfold own_life, e'. cbn [e_born e_result e_conn e_trace].
        eapply session_process; [exact (proj1 (g_lives _ _ _ _ _ _ _ _ _ G1) fd e Hc1)|exact (N fd e C)|exact Ar|exact I|exact Ep]. }
      assert (B2 : total s2 = total s).
      { rewrite <- B1. unfold s2. cbn [set_world set_conns sv_conns sv_gone].
        rewrite (put_num W app w0 fd e' s1); [reflexivity|apply (g_limit _ _ _ _ _ _ _ _ _ G1)|]. unfold conn_at in Hc1. congruence. }
      assert (C2 : conn_at W s2 fd e') by (unfold conn_at, s2; cbn [set_world set_conns sv_conns]; now rewrite mget_mput, Z.eqb_refl).
      rewrite <- B2. clearbody s2 e'. destruct r; [reflexivity|reflexivity|].
      exact (dropped_total _ _ _ _ G2 C2 (drop_remove_erase linux W fd e' s2 C2 (good_open _ _ _ _ _ _ _ _ Hl0 _ _ _ G2 C2))).
  Qed.
  Lemma incoming_news a s s' : good s -> handle_incoming_connection linux W a s = Ret s' -> news (incoming_trace v linux W a s) = total s' - total s.
  Proof.
    intros G E. unfold handle_incoming_connection, incoming_trace, establish_conn, establish_trace, accept_trace in *.
    destruct (negb (lenZ (conns s) >=? MAX_CONNECTIONS)) eqn:Ec.
    - destruct (try_accept a (ker s)) as [[fd k]| | |] eqn:Ea; try discriminate E. cbn [obind] in E.
      apply try_accept_cases in Ea as [(-> & ->)|(x & -> & H1 & H2 & ->)].
      + injection E as <-. rewrite set_kernel_same. unfold news. cbn. lia.
      + destruct (ar_transport a); [|discriminate E]. cbn [negb] in E. injection E as <-.
        assert (Hx : mget x (conns s) = None).
        { destruct (mget x (conns s)) as [e|] eqn:Ex; [|reflexivity]. rewrite (good_open _ _ _ _ _ _ _ _ Hl0 _ _ _ G Ex) in H2. discriminate. }
        rewrite set_total. cbn [set_conns set_kernel sv_conns sv_kernel sv_gone]. unfold mput. rewrite !lenZ_cons, (mdel_absent _ _ Hx).
        rewrite !news_app, (old_news _ (still_old _ (accept_still v _))), (old_news _ (still_old _ (ip_still v _))), (old_news _ (still_old _ (set_still v linux W _ _ _ _))).
        change (0 + (0 + (0 + (1 + 0))) = 1 + lenZ (conns s) + lenZ (sv_gone W s) - total s). lia.
    - destruct (try_accept a (ker s)) as [[fd k]| | |] eqn:Ea; try discriminate E. cbn [obind] in E.
      apply try_accept_cases in Ea as [(-> & ->)|(x & -> & H1 & H2 & ->)]; injection E as <-.
      + rewrite set_kernel_same. unfold news. cbn. lia.
      + cbn [set_kernel sv_conns sv_kernel sv_gone].
        rewrite !news_app, (old_news _ (still_old _ (accept_still v _))), (old_news _ (still_old _ (ip_still v _))).
        unfold closing_trace. apply Z.leb_le in H1. rewrite Z.geb_leb, H1. change (0 + (0 + (0 + 0)) = total s - total s). lia.
  Qed.
  Lemma events_news evs : forall s s', good s -> none_discarded W s -> Forall around_ok evs ->
    handle_events linux listener W app cs T evs s = Ret s' -> news (events_trace v linux listener tls W app cs T evs s) = total s' - total s.
  Proof.
    induction evs as [|[fd [ev a]] evs IH]; intros s s' G N Ha E; [injection E as <-; unfold news; cbn; lia|]. cbn [handle_events events_trace] in *.
    apply Forall_cons_iff in Ha as [Ha Ha']. destruct (fd =? listener).
    - destruct (handle_incoming_connection linux W a s) as [s1| | |] eqn:E1; try discriminate E. cbn [obind] in E.
      rewrite news_app, (incoming_news _ _ _ G E1). rewrite (IH s1 s'); [lia|exact (incoming_good _ _ _ _ _ _ _ _ Hl0 _ _ _ G E1)|exact (incoming_none _ _ app w0 _ _ _ N E1)|exact Ha'|exact E].
    - destruct (handle_connection_events linux W app cs T fd ev a s) as [s1| | |] eqn:E1; try discriminate E. cbn [obind] in E.
      rewrite news_app, (old_news _ (event_old _ _ _ _)), <- (event_total _ _ _ _ _ G N Ha E1).
      destruct (events_good _ _ _ _ _ _ _ _ Hl0 _ _ _ _ _ G N Ha E1) as [G1 N1]. rewrite (IH s1 s'); auto.
  Qed.
  Lemma reap_old clock l : forall s, Forall old (reap_trace v linux tls W clock l s).
  Proof using Type.
    clear Hk0 Hl0. induction l as [|[fd e] l IH]; intros s; [constructor|]. cbn [reap_trace]. destruct (has_timed_out _ _); [|apply IH].
    rewrite !Forall_app. repeat match goal with |- _ /\ _ => split end; first [apply IH|apply erase_old|apply still_old, remove_still|repeat constructor].
  Qed.
  Lemma reap_total clock l : forall s, good s -> NoDup (map fst l) -> (forall fd e, In (fd, e) l -> conn_at W s fd e) -> total (reap linux W clock l s) = total s.
  Proof.
    induction l as [|[fd e] l IH]; intros s G Hd Hl; [reflexivity|]. cbn [reap]. cbn [map fst] in Hd.
    inversion Hd as [|x y Hd1 Hd2]; subst x y. assert (C : conn_at W s fd e) by (apply Hl; now left).
    destruct (has_timed_out (clock fd) (e_conn e)); [|apply IH; [exact G|exact Hd2|intros x b K; apply Hl; now right]].
    pose proof (good_open _ _ _ _ _ _ _ _ Hl0 _ _ _ G C) as O. pose proof (drop_remove_erase linux W fd e s C O) as D.
    rewrite IH; [exact (dropped_total _ _ _ _ G C D)|exact (dropped_good _ _ _ _ _ _ _ _ Hl0 _ _ _ _ G C D)|exact Hd2|].
    intros x b K. unfold conn_at. rewrite (dr_conns _ _ _ _ _ D), mget_mdel. destruct (Z.eqb_spec x fd) as [->|_]; [|apply Hl; now right].
    exfalso. apply Hd1. apply in_map_iff. exists (fd, b). auto.
  Qed.
  Lemma stops_total l : forall s, total (fold_left (fun s r => stop W r s) l s) = total s.
  Proof using Type. clear Hk0 Hl0. induction l as [|r l IH]; intros s; [auto|]. cbn [fold_left]. exact (IH (stop W r s)). Qed.
  Lemma iterate_news it s s' : good s -> none_discarded W s -> iteration_ok it ->
    iterate linux listener W app cs T it s = Ret s' -> news (iterate_trace v linux listener tls W app cs T it s) = total s' - total s.
  Proof.
    intros G N Hok E. destruct (g_limit _ _ _ _ _ _ _ _ s G) as (_ & M & _).
    pose proof (batch_spec linux listener W app cs T k0 w0 Hl0 it s G N) as (B1 & B2 & _ & _ & B5). specialize (B5 Hok). unfold batch in B1, B2, B5.
    assert (R : total (reap_idle_connections linux W (it_clock it) s) = total s)
      by (apply reap_total; [exact G|exact M|intros fd e K; exact (proj2 (mget_entry (conns s) M fd e) K)]).
    unfold iterate, iterate_trace in *. rewrite !news_app, (old_news _ (reap_old _ _ _)).
    fold (reap_idle_connections linux W (it_clock it) s) in *. set (s1 := reap_idle_connections linux W (it_clock it) s) in *.
    destruct (poller_poll linux (it_wait it) (sv_poller W s1) (ker s1)) as [events p]. cbn [fst snd] in *.
    rewrite news_app, (old_news _ (still_old _ (poll_still v linux _))). destruct events as [evs|x]; cbn [obind] in E.
    - destruct (handle_events linux listener W app cs T evs _) as [s2| | |] eqn:E2; try discriminate E. cbn [obind] in E. injection E as <-.
      rewrite stops_total, (events_news _ _ _ B1 B2 B5 E2). cbn [set_poller sv_conns sv_gone]. lia.
    - injection E as <-. rewrite stops_total. cbn [set_poller sv_conns sv_gone]. unfold news. cbn [filter]. change (lenZ (@nil message)) with 0. lia.
  Qed.
  Lemma loop_news its : forall s b s', good s -> none_discarded W s -> Forall iteration_ok its ->
    loop linux listener W app cs T its s = Ret (b, s') -> news (loop_trace v linux listener tls W app cs T its s) = total s' - total s.
  Proof.
    assert (B : forall x, news [info (str "server shutting down (reason: " ++ x)] = 0) by (intros x; apply old_news; repeat constructor).
    induction its as [|it its IH]; intros s b s' G N Hok E; cbn [loop loop_trace] in *.
    - destruct (sv_stop W s); injection E as _ <-; [rewrite B; lia|unfold news; cbn; lia].
    - destruct (sv_stop W s); [injection E as _ <-; rewrite B; lia|].
      apply Forall_cons_iff in Hok as [Hok Hok'].
      destruct (iterate linux listener W app cs T it s) as [s1| | |] eqn:E1; try discriminate E. cbn [obind] in E.
      destruct (iterate_good _ _ _ _ _ _ _ _ Hl0 _ _ _ G N Hok E1) as [G1 N1].
      rewrite news_app, (iterate_news _ _ _ G N Hok E1), (IH _ _ _ G1 N1 Hok' E). lia.
  Qed.
  Lemma start_news port made ok stopped its b s : Forall iteration_ok its ->
    start linux listener W app cs T made ok stopped k0 w0 its = Ret (b, s) ->
    news (start_trace v linux listener tls W app cs T port made ok stopped k0 w0 its) = total s.
  Proof.
    unfold start, start_trace. destruct made; [|discriminate]. cbn [negb]. intros Hok E. rewrite E.
    destruct (first_good linux listener W app cs T k0 w0 Hk0 Hl0 ok stopped) as [G N]. pose proof (loop_news its _ _ _ G N Hok E) as R.
    unfold first_state in R. rewrite set_total in R. cbn [sv_conns sv_gone] in R. rewrite !news_app, R, (old_news _ (still_old _ (set_still v linux W _ _ _ _))).
    assert (X : news (if b then closing_trace listener else []) = 0) by (unfold closing_trace; destruct b; [destruct (listener >=? 0)|]; reflexivity).
    rewrite X. change (0 + (0 + (total s - 0 + 0)) = total s). lia.
  Qed.

  (** The same, and the sockets closed and the state of OpenSSL freed, with the exceptions. *)
  Record told (s s' : server W) (ms : list message) : Prop := {
    t_news : news ms = total s' - total s;
    t_closes : closes ms = lenZ (k_closed (ker s')) - lenZ (k_closed (ker s));
    t_frees : frees ms = if tls then lenZ (sv_gone W s') - lenZ (sv_gone W s) else 0 }.
  Lemma closes_app a b : closes (a ++ b) = closes a + closes b.
  Proof using Type. clear Hk0 Hl0. unfold closes. now rewrite filter_app, lenZ_app. Qed.
  Lemma frees_app a b : frees (a ++ b) = frees a + frees b.
  Proof using Type. clear Hk0 Hl0. unfold frees. now rewrite filter_app, lenZ_app. Qed.
  Lemma told_app s s1 s2 a b : told s s1 a -> told s1 s2 b -> told s s2 (a ++ b).
  Proof using Type.
    clear Hk0 Hl0 app w0. intros [A1 A2 A3] [B1 B2 B3]. split; rewrite ?news_app, ?closes_app, ?frees_app, ?A1, ?A2, ?A3, ?B1, ?B2, ?B3; try lia. destruct tls; lia.
  Qed.
  Lemma told_still s s' ms : Forall still ms -> total s' = total s -> k_closed (ker s') = k_closed (ker s) -> sv_gone W s' = sv_gone W s -> told s s' ms.
  Proof using Type.
    clear Hk0 Hl0 app w0. intros H Ht Hc Hg. destruct (kept_still tls 0 0 0 ms H) as [_ _ K3 K4]. split.
    - rewrite (old_news _ (still_old _ H)). lia.
    - rewrite K3, Hc. lia.
    - rewrite K4, Hg. destruct tls; lia.
  Qed.
  Lemma incoming_thrown a s : handle_incoming_connection linux W a s = Throw -> told s (left_by W a s) (incoming_trace v linux W a s).
  Proof using Type.
    clear Hk0 Hl0 app w0. intros E. unfold handle_incoming_connection, incoming_trace, establish_conn, establish_trace, accept_trace, try_accept, left_by in *.
    assert (J : forall x l, 0 <= x -> mget x (k_open (ker s)) = None -> Forall still l ->
      told s (set_kernel W (k_close x (k_new x (ker s))) s) (l ++ closing_trace x)).
    { intros x l Hx Hm Hl. destruct (kept_still tls 0 0 0 l Hl) as [_ _ L3 L4]. destruct (kept_close tls 0 0 0 x Hx) as [_ _ M3 M4].
      assert (X : news (closing_trace x) = 0) by (apply old_news; unfold closing_trace; destruct (x >=? 0); repeat constructor).
      split; rewrite ?news_app, ?closes_app, ?frees_app, ?(old_news _ (still_old _ Hl)), ?X, ?L3, ?M3, ?L4, ?M4; cbn [set_kernel sv_conns sv_gone sv_kernel]; [lia| |destruct tls; lia].
      unfold k_close. cbn [k_new k_open]. rewrite mget_mput, Z.eqb_refl. cbn [k_new k_closed]. rewrite lenZ_app. unfold lenZ at 2. cbn [length]. lia. }
    destruct (ar_accept a) as [x nb| |] eqn:Ha.
    - destruct (Z.ltb_spec x 0) as [Hx|Hx]; cbn [orb obind] in *; [destruct (negb _); discriminate E|].
      destruct (mhas x (k_open (ker s))) eqn:M; cbn [obind] in *; [destruct (negb _); discriminate E|]. apply mhas_false in M. destruct nb; cbn [obind] in *.
      + destruct (negb (lenZ (conns s) >=? MAX_CONNECTIONS)); [|discriminate E]. destruct (ar_transport a); [discriminate E|].
        rewrite !app_assoc. apply J; [exact Hx|exact M|]. rewrite !Forall_app. split; [split; [apply accept_still|apply ip_still]|]. constructor; [repeat split|constructor].
      + specialize (J x [] Hx M (Forall_nil _)). cbn [List.app] in J. destruct (negb (lenZ (conns s) >=? MAX_CONNECTIONS)); rewrite app_nil_r; exact J.
    - cbn [obind] in E. destruct (negb _); discriminate E.
    - destruct (negb (lenZ (conns s) >=? MAX_CONNECTIONS)); apply told_still; try reflexivity; constructor.
  Qed.
  Lemma event_thrown fd ev a s : handle_connection_events linux W app cs T fd ev a s = Throw -> told s s (event_trace v linux tls W app cs T fd ev a s).
  Proof using Type.
    clear Hk0 Hl0. intros E. apply told_still; try reflexivity. unfold handle_connection_events, event_trace in *. destruct (mget fd (conns s)) as [e|]; [|discriminate E].
    destruct (has_event ev PError || has_event ev PHangup); [discriminate E|]. destruct (negb (has_event ev PRead) && negb (has_event ev PWrite)); [discriminate E|].
    set (s1 := if has_event ev PWrite then _ else _) in *. destruct (process W app cs T (ar_scripts a) (e_conn e) (sv_world W s1)) as [[[[r c] tr] w]| | |]; cbn [obind] in E; try discriminate E.
    - destruct r; discriminate E.
    - rewrite app_nil_r. destruct (has_event ev PWrite); [apply set_still|constructor].
  Qed.
  Lemma events_told evs : forall s, good s -> none_discarded W s -> Forall around_ok evs ->
    (exists s', handle_events linux listener W app cs T evs s = Ret s') \/ handle_events linux listener W app cs T evs s = Throw ->
    told s (left_events W linux listener app cs T evs s) (events_trace v linux listener tls W app cs T evs s).
  Proof.
    induction evs as [|[fd [ev a]] evs IH]; intros s G N Ha E; [apply told_still; try reflexivity; constructor|]. cbn [handle_events left_events events_trace] in *.
    apply Forall_cons_iff in Ha as [Ha Ha']. destruct (fd =? listener).
    - destruct (handle_incoming_connection linux W a s) as [s1| | |] eqn:E1; cbn [obind] in E; try (destruct E as [[s' E]|E]; discriminate E).
      + apply (told_app _ s1).
        * destruct (incoming_kept v linux listener tls W app cs T k0 w0 Hl0 a s s1 G E1) as [_ _ K3 K4]. split; [exact (incoming_news _ _ _ G E1)|exact K3|exact K4].
        * apply IH; [exact (incoming_good _ _ _ _ _ _ _ _ Hl0 _ _ _ G E1)|exact (incoming_none _ _ app w0 _ _ _ N E1)|exact Ha'|exact E].
      + rewrite app_nil_r. now apply incoming_thrown.
    - destruct (handle_connection_events linux W app cs T fd ev a s) as [s1| | |] eqn:E1; cbn [obind] in E; try (destruct E as [[s' E]|E]; discriminate E).
      + apply (told_app _ s1).
        * destruct (event_kept v linux listener tls W app cs T k0 w0 Hl0 fd ev a s s1 G N Ha E1) as [_ _ K3 K4]. split; [|exact K3|exact K4].
          rewrite (old_news _ (event_old _ _ _ _)), (event_total _ _ _ _ _ G N Ha E1). lia.
        * destruct (events_good _ _ _ _ _ _ _ _ Hl0 _ _ _ _ _ G N Ha E1) as [G1 N1]. now apply IH.
      + rewrite app_nil_r. now apply event_thrown.
  Qed.
  Lemma iterate_thrown it s : good s -> none_discarded W s -> iteration_ok it ->
    iterate linux listener W app cs T it s = Throw -> told s (left_iterate W linux listener app cs T it s) (iterate_trace v linux listener tls W app cs T it s).
  Proof.
    intros G N Hok E. destruct (g_limit _ _ _ _ _ _ _ _ s G) as (_ & M & _).
    pose proof (batch_spec linux listener W app cs T k0 w0 Hl0 it s G N) as (B1 & B2 & _ & _ & B5). specialize (B5 Hok). unfold batch in B1, B2, B5.
    assert (HM : forall fd e, In (fd, e) (conns s) -> conn_at W s fd e) by (intros fd e K; exact (proj2 (mget_entry (conns s) M fd e) K)).
    unfold iterate, left_iterate, iterate_trace in *.
    apply (told_app _ (reap_idle_connections linux W (it_clock it) s)).
    { destruct (reap_kept v linux listener tls W app cs T k0 w0 Hl0 (it_clock it) (conns s) s G M HM) as [_ _ K3 K4]. split; [|exact K3|exact K4].
      rewrite (old_news _ (reap_old _ _ _)). unfold reap_idle_connections. rewrite (reap_total _ _ _ G M HM). lia. }
    set (s1 := reap_idle_connections linux W (it_clock it) s) in *.
    destruct (poller_poll linux (it_wait it) (sv_poller W s1) (ker s1)) as [events p]. cbn [fst snd] in *. destruct events as [evs|x]; cbn [obind] in E; [|discriminate E].
    apply (told_app _ (set_poller W (p, ker s1) s1)); [apply told_still; try reflexivity; apply poll_still|].
    apply events_told; [exact B1|exact B2|exact B5|]. destruct (handle_events linux listener W app cs T evs _) as [s2| | |]; try discriminate E. now right.
  Qed.
  Lemma loop_told its : forall s, good s -> none_discarded W s -> Forall iteration_ok its ->
    (exists x, loop linux listener W app cs T its s = Ret x) \/ loop linux listener W app cs T its s = Throw ->
    told s (left_loop W linux listener app cs T its s) (loop_trace v linux listener tls W app cs T its s).
  Proof.
    assert (B : forall s x, told s s [info (str "server shutting down (reason: " ++ x)]).
    { intros s x. apply told_still; try reflexivity. constructor; [repeat split|constructor]. }
    induction its as [|it its IH]; intros s G N Hok E; cbn [loop left_loop loop_trace] in *.
    - destruct (sv_stop W s); [apply B|]. apply told_still; try reflexivity; constructor.
    - destruct (sv_stop W s); [apply B|]. apply Forall_cons_iff in Hok as [Hok Hok'].
      destruct (iterate linux listener W app cs T it s) as [s1| | |] eqn:E1; cbn [obind] in E; try (destruct E as [[s' E]|E]; discriminate E).
      + destruct (iterate_good _ _ _ _ _ _ _ _ Hl0 _ _ _ G N Hok E1) as [G1 N1]. apply (told_app _ s1); [|now apply IH].
        destruct (iterate_kept v linux listener tls W app cs T k0 w0 Hl0 it s s1 G N Hok E1) as [_ _ K3 K4]. split; [exact (iterate_news _ _ _ G N Hok E1)|exact K3|exact K4].
      + rewrite app_nil_r. now apply iterate_thrown.
  Qed.
End News.
