(** C121: output that is waiting reaches a client that goes on reading. *)
From Verif Require Import Base BaseLemmas Huffman Http Conn SpecConn ConnLemmas ConnRule ConnBasic ConnTerm ConnRun ConnSpec ConnMore ConnLast ConnWit
  Poller Server SpecServer ServerProofs ServerReach SocketProofs ServerMore ServerHistory ServerGrows PropServer PropServer2 SpecDelivery.

Section Delivery.
  Variable linux : bool.
  Variable listener : Z.
  Variable W : Type.
  Variable app : request -> W -> W * app_answer.
  Variable cs : bool.
  Variable T : tree.
  Variable others : W -> W -> Prop.
  Variable t0 : Z.
  Variable w0 : W.

  (** A call that finds output waiting writes it first. *)
  Lemma writes_first s c w now n more r c' ev w' : c_wbuf c <> [] -> c_state c <> AwaitingHandshake ->
    sc_wr s = (now, WrOk n) :: more -> 1 <= n -> process W app cs T s c w = Ret (r, c', ev, w') ->
    (n < lenZ (c_wbuf c) -> r = WantWrite /\ c_state c' = c_state c /\ c_wbuf c' = skipn (Z.to_nat n) (c_wbuf c) /\
       ev = [EvWrite now (c_wbuf c) (firstn (Z.to_nat n) (c_wbuf c)) (Val n)] /\ w' = w) /\
    (lenZ (c_wbuf c) <= n -> exists ev2, ev = EvWrite now (c_wbuf c) (c_wbuf c) (Val (lenZ (c_wbuf c))) :: ev2).
  Proof using Type.
    clear others t0 w0. intros Hw Hs Es Hn E. unfold process in E. change (3 + length (c_rbuf c) + script_octets (sc_rd s))%nat with (S (2 + length (c_rbuf c) + script_octets (sc_rd s))) in E.
    set (fuel := (2 + length (c_rbuf c) + script_octets (sc_rd s))%nat) in E. clearbody fuel. cbn [internal_process] in E.
    assert (E0 : match c_state c with AwaitingHandshake => handle_handshake (sc_hs s) c | _ => (None, c, [], sc_hs s) end = (None, c, [], sc_hs s)) by (destruct (c_state c); congruence).
    rewrite E0 in E. unfold flush_write_buffer in E. rewrite Es in E. destruct (c_wbuf c) as [|x b] eqn:Eb; [now destruct Hw|]. set (buf := x :: b) in *.
    split; intros Hl.
    - replace (Z.max 0 (Z.min n (lenZ buf))) with n in E by lia. cbn [c_wbuf] in E.
      assert (Hk : skipn (Z.to_nat n) buf <> []).
      { intros K. apply (f_equal (@length Z)) in K. rewrite skipn_length in K. unfold lenZ in Hl. cbn [length] in K. lia. }
      destruct (skipn (Z.to_nat n) buf) as [|y l] eqn:Ek; [now destruct Hk|]. cbn [obind] in E. injection E as <- <- <- <-. cbn [c_state c_wbuf]. auto.
    - replace (Z.max 0 (Z.min n (lenZ buf))) with (lenZ buf) in E by (pose proof (lenZ_nonneg buf); lia). cbn [c_wbuf] in E.
      assert (K1 : Z.to_nat (lenZ buf) = length buf) by (unfold lenZ; lia). rewrite K1, skipn_all, firstn_all in E.
      destruct (fill_read_buffer (sc_rd s) _) as [[c2 ev2] rd'] eqn:E2. destruct (dispatch W app cs T c2 w) as [[[[v c3] ev3] w3]| | |] eqn:E3; try discriminate E. cbn [obind] in E.
      destruct v.
      + cbn [obind] in E. destruct (internal_process W app cs T fuel _ c3 w3) as [[[[v' c4] ev4] w4]| | |]; try discriminate E. cbn [obind] in E.
        destruct v'; try discriminate E; injection E as _ _ <- _; eexists; reflexivity.
      + cbn [obind] in E. injection E as _ _ <- _. eexists. reflexivity.
      + cbn [obind] in E. injection E as _ _ <- _. eexists. reflexivity.
  Qed.

  (** C32 from what was observed. *)
  Lemma no_loss_seen A r c tr w : session W app cs T others t0 w0 A r c tr w -> true_writes tr -> delivered tr ++ c_wbuf c = queued tr.
  Proof using Type.
    intros H. apply session_any in H.
    eapply (session_rule_buffered W app cs T others t0 w0 any any
      (fun c tr _ => true_writes tr -> delivered tr ++ c_wbuf c = queued tr)
      (fun _ c tr _ => true_writes tr -> delivered tr ++ c_wbuf c = queued tr)) in H; auto.
    - destruct r; apply H.
    - intros now c1 tr1 w1 HP _ Ht. apply Forall_app in Ht as [Ht _]. rewrite delivered_app, queued_app, !app_nil_r. auto.
    - intros e c1 tr1 w1 HP _ _ Ht. apply Forall_app in Ht as [Ht _]. rewrite delivered_app, queued_app, !app_nil_r. auto.
    - intros wr c1 tr1 w1 c2 ev wr' HP _ _ _ E Ht. apply Forall_app in Ht as [Ht Hv]. rewrite delivered_app, queued_app, <- (HP Ht).
      unfold flush_write_buffer in E. destruct (c_wbuf c1) as [|x xs] eqn:Ew.
      { injection E as <- <- _. now rewrite Ew, !app_nil_r. }
      destruct wr as [|[now [n|k|e]] wr].
      + injection E as <- <- _. cbn. now rewrite Ew, !app_nil_r.
      + injection E as <- <- _. cbn [c_wbuf delivered queued flat_map]. rewrite !app_nil_r, <- app_assoc.
        now rewrite firstn_skipn.
      + injection E as <- <- _. apply Forall_inv in Hv. cbn [delivered queued flat_map set_state c_wbuf]. rewrite Hv. cbn. now rewrite Ew, !app_nil_r.
      + injection E as <- <- _. destruct e; cbn; now rewrite Ew, !app_nil_r.
    - intros now o c1 tr1 w1 HP _ _ _ _ _ _ _ Ht. apply Forall_app in Ht as [Ht _]. rewrite delivered_app, queued_app, !app_nil_r. auto.
    - intros now e c1 tr1 w1 HP _ _ _ _ Ht. apply Forall_app in Ht as [Ht _]. rewrite delivered_app, queued_app, !app_nil_r. specialize (HP Ht). now destruct e.
    - intros c1 tr1 w1 c2 ev w2 HP [Hb _] _ Hs E Ht. apply Forall_app in Ht as [Ht _]. apply dispatch_quiet in E as (Hq & -> & _); auto.
      apply qos_received in Hq as [_ Hd]. now rewrite delivered_app, queued_app, Hd, app_nil_r, <- (HP Ht), <- app_assoc.
    - intros c1 tr1 w1 r1 c2 ev w2 HP [Hb _] _ Hs E Ht. apply Forall_app in Ht as [Ht _]. apply dispatch_quiet in E as (Hq & -> & _); auto.
      apply qos_received in Hq as [_ Hd]. now rewrite delivered_app, queued_app, Hd, app_nil_r, <- (HP Ht), <- app_assoc.
    - intros c1 tr1 w1 c2 ev w2 HP [Hb _] _ Hs E Ht. apply Forall_app in Ht as [Ht _]. apply dispatch_quiet in E as (Hq & Ew & _); auto.
      cbn [set_state c_wbuf]. rewrite Ew.
      apply qos_received in Hq as [_ Hd]. now rewrite delivered_app, queued_app, Hd, app_nil_r, <- (HP Ht), <- app_assoc.
  Qed.
End Delivery.

(** One iteration in which the system takes [n] octets. *)
Lemma takes_step linux listener W app cs T k0 w0 s fd e it a n s' :
  setting listener k0 -> reached linux listener W app cs T k0 w0 true enough_resources [] s -> conn_at W s fd e -> e_result e = Some WantWrite ->
  takes linux W s fd it a n -> iterate linux listener W app cs T it s = Ret s' ->
  let b := c_wbuf (e_conn e) in b <> [] /\ 1 <= n /\
  (n < lenZ b -> exists now e', conn_at W s' fd e' /\ e_socket e' = e_socket e /\ e_result e' = Some WantWrite /\ c_wbuf (e_conn e') = skipn (Z.to_nat n) b /\
     e_trace e' = e_trace e ++ [EvWrite now b (firstn (Z.to_nat n) b) (Val n)]) /\
  (lenZ b <= n -> exists e' now tr, anyone W s' e' /\ e_socket e' = e_socket e /\ e_trace e' = e_trace e ++ EvWrite now b b (Val (lenZ b)) :: tr).
Proof.
  intros Hset R Hc Hr [[Hok He] (evs & m & Hw & Hd & Hs & Hi & M2 & M3 & M4) [Hn (now & more & Es)] Ht] E b. specialize (Ht e Hc).
  destruct Hset as [H1 H2]. destruct (reached_good _ _ _ _ _ _ _ _ H1 H2 _ _ _ _ R) as (G & N & _).
  pose proof (proj1 (g_lives _ _ _ _ _ _ _ _ _ G) fd e Hc) as L.
  pose proof (timed_out_iff _ _ _ _ _ _ _ _ _ _ _ _ (it_clock it fd) L) as X.
  assert (Ex : expired (it_clock it) fd e = false) by (apply not_true_is_false; intros K; apply X in K; lia).
  destruct (session_young _ _ _ _ _ _ _ _ _ _ _ _ L) as (Y & Yw & _). rewrite Hr in Y, Yw. specialize (Y ltac:(discriminate)). specialize (Yw eq_refl).
  assert (Hh : c_state (e_conn e) <> AwaitingHandshake) by (intros K; now destruct (y_before _ _ Y K) as (_ & K' & _)).
  destruct (iterate_calls _ _ _ _ _ _ _ _ H1 H2 it s s' evs fd e m a R Hok Hw Hd Hs E Hc Ex Hi (or_intror M2) M3 M4) as (w & r & c & tr & w' & Ep & Hg & Hk).
  destruct (writes_first W app cs T _ _ _ _ _ _ _ _ _ _ Yw Hh Es Hn Ep) as [A1 A2]. split; [exact Yw|]. split; [exact Hn|]. split; intros Hl.
  - destruct (A1 Hl) as (-> & _ & Ew & -> & _). exists now. eexists. split; [exact (Hk ltac:(discriminate))|]. cbn [e_socket e_result e_conn e_trace]. auto.
  - destruct (A2 Hl) as (ev2 & ->). destruct Hg as (e' & tr' & Ha & Hsock & Etr). exists e', now, (ev2 ++ tr'). split; [exact Ha|]. split; [exact Hsock|].
    rewrite Etr. cbn [e_trace]. now rewrite <- app_assoc.
Qed.

(** One in which nothing is reported. *)
Lemma silent_step linux listener W app cs T k0 w0 s fd e it s' :
  setting listener k0 -> reached linux listener W app cs T k0 w0 true enough_resources [] s -> conn_at W s fd e ->
  silent W s fd it -> iterate linux listener W app cs T it s = Ret s' -> conn_at W s' fd e.
Proof.
  intros [H1 H2] R Hc [[Hok He] Hn Ht] E. specialize (Ht e Hc). destruct (reached_good _ _ _ _ _ _ _ _ H1 H2 _ _ _ _ R) as (G & N & _).
  pose proof (proj1 (g_lives _ _ _ _ _ _ _ _ _ G) fd e Hc) as L.
  pose proof (timed_out_iff _ _ _ _ _ _ _ _ _ _ _ _ (it_clock it fd) L) as X.
  assert (Ex : expired (it_clock it) fd e = false) by (apply not_true_is_false; intros K; apply X in K; lia).
  exact (iterate_passes _ _ _ _ _ _ _ _ H2 it s s' fd e G N Hok E Hc Ex Hn).
Qed.
Lemma drained_nonneg linux listener W app cs T fd s ns s' : draining linux listener W app cs T fd s ns s' -> 0 <= total ns.
Proof. induction 1 as [|s it a n s1 ns s' [_ _ [Hn _] _] _ _ IH|]; [cbn; lia| |assumption]. cbn [total fold_right] in *. unfold total in IH. lia. Qed.

(** ** C121.  [c_wbuf (e_conn e)] is what waits to be sent.  As long as the system has not
    taken all of it the connection is kept, what was taken is the beginning of it, and
    nothing else is done for the client. *)
Theorem C121_kept : forall linux listener W app cs T k0 w0 s fd e ns s',
  setting listener k0 -> reached linux listener W app cs T k0 w0 true enough_resources [] s ->
  conn_at W s fd e -> e_result e = Some WantWrite -> draining linux listener W app cs T fd s ns s' ->
  total ns < lenZ (c_wbuf (e_conn e)) ->
  exists e' tr, conn_at W s' fd e' /\ e_socket e' = e_socket e /\ e_result e' = Some WantWrite /\ e_trace e' = e_trace e ++ tr /\
    delivered tr ++ c_wbuf (e_conn e') = c_wbuf (e_conn e) /\ lenZ (delivered tr) = total ns /\
    length tr = length ns /\ Forall (fun ev => is_write ev = true) tr.
Proof.
  intros linux listener W app cs T k0 w0 s fd e ns s' Hset R Hc Hr D. revert e R Hc Hr.
  induction D as [s|s it a n s1 ns s' Ht E D IH|s it s1 ns s' Ht E D IH]; intros e R Hc Hr Hl.
  - exists e, []. rewrite app_nil_r. split; [exact Hc|]. split; [reflexivity|]. split; [exact Hr|]. repeat (split; [reflexivity|]). constructor.
  - destruct (takes_step _ _ _ _ _ _ _ _ _ _ _ _ _ _ _ Hset R Hc Hr Ht E) as (Hb & Hn & A1 & _). cbn [total fold_right] in Hl.
    pose proof (drained_nonneg _ _ _ _ _ _ _ _ _ _ D) as P.
    destruct A1 as (now & e1 & C1 & S1 & R1 & W1 & T1); [unfold total in P; lia|].
    destruct (IH e1 (iterate_reached _ _ _ _ _ _ _ _ _ _ _ _ _ R (proj1 (tk_ok _ _ _ _ _ _ _ Ht)) (proj2 (tk_ok _ _ _ _ _ _ _ Ht)) E) C1 R1)
      as (e' & tr & C2 & S2 & R2 & T2 & D2 & L2 & N2 & F2).
    { rewrite W1. unfold lenZ in *. rewrite skipn_length. unfold total in *. lia. }
    exists e', (EvWrite now (c_wbuf (e_conn e)) (firstn (Z.to_nat n) (c_wbuf (e_conn e))) (Val n) :: tr).
    split; [exact C2|]. split; [congruence|]. split; [exact R2|]. split; [now rewrite T2, T1, <- app_assoc|].
    cbn [delivered flat_map]. fold (delivered tr). split; [now rewrite <- app_assoc, D2, W1, firstn_skipn|].
    split; [|split; [cbn [length]; now rewrite N2|constructor; [reflexivity|exact F2]]].
    rewrite lenZ_app, L2. cbn [total fold_right]. unfold total, lenZ in *. rewrite firstn_length. lia.
  - exact (IH e (iterate_reached _ _ _ _ _ _ _ _ _ _ _ _ _ R (proj1 (si_ok _ _ _ _ Ht)) (proj2 (si_ok _ _ _ _ Ht)) E)
             (silent_step _ _ _ _ _ _ _ _ _ _ _ _ _ Hset R Hc Ht E) Hr Hl).
Qed.
Print Assumptions C121_kept.

(** Once it has taken that much, everything that waited was delivered. *)
Theorem C121_delivered : forall linux listener W app cs T k0 w0 s fd e ns s',
  setting listener k0 -> reached linux listener W app cs T k0 w0 true enough_resources [] s ->
  conn_at W s fd e -> e_result e = Some WantWrite -> draining linux listener W app cs T fd s ns s' ->
  lenZ (c_wbuf (e_conn e)) <= total ns ->
  exists e' tr rest, anyone W s' e' /\ e_socket e' = e_socket e /\ e_trace e' = e_trace e ++ tr /\
    delivered tr = c_wbuf (e_conn e) ++ rest /\ (true_writes (e_trace e) -> delivered (e_trace e') = queued (e_trace e) ++ rest).
Proof.
  intros linux listener W app cs T k0 w0 s fd e ns s' Hset R Hc Hr D Hl.
  assert (A : exists e' tr rest, anyone W s' e' /\ e_socket e' = e_socket e /\ e_trace e' = e_trace e ++ tr /\ delivered tr = c_wbuf (e_conn e) ++ rest).
  { revert e R Hc Hr Hl. induction D as [s|s it a n s1 ns s' Ht E D IH|s it s1 ns s' Ht E D IH]; intros e R Hc Hr Hl.
    - exfalso. destruct Hset as [H1 H2]. destruct (reached_good _ _ _ _ _ _ _ _ H1 H2 _ _ _ _ R) as (G & _).
      pose proof (proj1 (g_lives _ _ _ _ _ _ _ _ _ G) fd e Hc) as L. destruct (session_young _ _ _ _ _ _ _ _ _ _ _ _ L) as (_ & Yw & _).
      apply (Yw Hr). destruct (c_wbuf (e_conn e)) as [|z l]; [reflexivity|]. rewrite lenZ_cons in Hl. pose proof (lenZ_nonneg l). cbn [total fold_right] in Hl. lia.
    - destruct (takes_step _ _ _ _ _ _ _ _ _ _ _ _ _ _ _ Hset R Hc Hr Ht E) as (Hb & Hn & A1 & A2). cbn [total fold_right] in Hl.
      pose proof (iterate_reached _ _ _ _ _ _ _ _ _ _ _ _ _ R (proj1 (tk_ok _ _ _ _ _ _ _ Ht)) (proj2 (tk_ok _ _ _ _ _ _ _ Ht)) E) as R'.
      destruct (Z.lt_ge_cases n (lenZ (c_wbuf (e_conn e)))) as [Q|Q].
      + destruct (A1 Q) as (now & e1 & C1 & S1 & R1 & W1 & T1).
        destruct (IH e1 R' C1 R1) as (e' & tr & rest & C2 & S2 & T2 & D2).
        { rewrite W1. unfold lenZ in *. rewrite skipn_length. unfold total in *. lia. }
        exists e', (EvWrite now (c_wbuf (e_conn e)) (firstn (Z.to_nat n) (c_wbuf (e_conn e))) (Val n) :: tr), rest.
        split; [exact C2|]. split; [congruence|]. split; [now rewrite T2, T1, <- app_assoc|].
        cbn [delivered flat_map]. fold (delivered tr). now rewrite D2, W1, app_assoc, firstn_skipn.
      + destruct (A2 Q) as (e1 & now & tr & C1 & S1 & T1).
        assert (Gr : goes_on W e1 s').
        { destruct Hset as [H1 H2].
          clear - H1 H2 R' D C1. revert R'. assert (Gn : goes_on W e1 s1) by (exists e1, []; rewrite app_nil_r; auto). clear C1. revert Gn.
          induction D as [|s it a n s2 ns s' [[Hok Hen] _ _ _] E D IH|s it s2 ns s' [[Hok Hen] _ _] E D IH]; intros Gn R'; [exact Gn| |];
          destruct (reached_good _ _ _ _ _ _ _ _ H1 H2 _ _ _ _ R') as (G & N & _);
          (apply IH; [|exact (iterate_reached _ _ _ _ _ _ _ _ _ _ _ _ _ R' Hok Hen E)]);
          exact (goes_on_grows W _ _ _ Gn (iterate_grows _ _ _ _ _ _ _ _ H2 it s s2 G N Hok E)). }
        destruct Gr as (e' & tr' & C2 & S2 & T2). exists e', ((EvWrite now (c_wbuf (e_conn e)) (c_wbuf (e_conn e)) (Val (lenZ (c_wbuf (e_conn e)))) :: tr) ++ tr'), (delivered (tr ++ tr')).
        split; [exact C2|]. split; [congruence|]. split; [now rewrite T2, T1, <- app_assoc|]. reflexivity.
    - exact (IH e (iterate_reached _ _ _ _ _ _ _ _ _ _ _ _ _ R (proj1 (si_ok _ _ _ _ Ht)) (proj2 (si_ok _ _ _ _ Ht)) E)
               (silent_step _ _ _ _ _ _ _ _ _ _ _ _ _ Hset R Hc Ht E) Hr Hl). }
  destruct A as (e' & tr & rest & A1 & A2 & A3 & A4). exists e', tr, rest. repeat (split; [assumption|]). intros Ht.
  destruct Hset as [H1 H2]. destruct (reached_good _ _ _ _ _ _ _ _ H1 H2 _ _ _ _ R) as (G & _).
  pose proof (proj1 (g_lives _ _ _ _ _ _ _ _ _ G) fd e Hc) as L. pose proof (no_loss_seen _ _ _ _ _ _ _ _ _ _ _ _ L Ht) as Q.
  now rewrite A3, delivered_app, A4, app_assoc, Q.
Qed.
Print Assumptions C121_delivered.

(** The SETTINGS frame and an acknowledgement wait; 2 s later another client connects, after
    4 s the system takes 20 octets, and after 8 s up to 30, of which 16 are left. *)
Definition takes_some (t fd n : Z) : iteration :=
  at_time t [(fd, (4, quiet AcceptAgain (Scripts [] [] [(t, WrOk n)])))].
Lemma takes_some_ok linux s e fd t n : conn_at unit s fd e -> 1 <= n -> t - last_success (e_born e) (e_trace e) <= 5000000000 ->
  (linux = true -> 1 <= p_size (sv_poller unit s)) ->
  takes linux unit s fd (takes_some t fd n) (quiet AcceptAgain (Scripts [] [] [(t, WrOk n)])) n.
Proof.
  intros Hc Hn Ht Hp. split.
  - split; cbn; repeat constructor.
  - exists [(fd, (4, quiet AcceptAgain (Scripts [] [] [(t, WrOk n)])))], 4. split; [reflexivity|]. split; [repeat constructor; easy|].
    split; [exact Hp|]. split; [now left|]. repeat split.
  - split; [exact Hn|]. now exists t, [].
  - intros e' He. unfold conn_at in *. assert (e' = e) by congruence. subst. exact Ht.
Qed.
Example C121_case : forall linux T, exists s e s', reached linux 3 unit hi true T k_std tt true enough_resources [] s /\
  conn_at unit s 4 e /\ e_result e = Some WantWrite /\ lenZ (c_wbuf (e_conn e)) = 36 /\ true_writes (e_trace e) /\
  draining linux 3 unit hi true T 4 s [20; 30] s'.
Proof.
  intros linux T.
  destruct (by_reached (linux := linux) (app := hi) (cs := true) (T := T) (w0 := tt) [at_time 0 [arrives 4]; at_time 0 [blocking 4 (w_hello ++ w_get)]]
    (fun s => match mget 4 (sv_conns unit s), iterate linux 3 unit hi true T (at_time 2000000000 [arrives 5]) s with
       | Some e, Ret s0 => e_result e = Some WantWrite /\ lenZ (c_wbuf (e_conn e)) = 36 /\ last_success (e_born e) (e_trace e) = 0 /\
           mget 4 (sv_conns unit s0) = Some e /\ p_size (sv_poller unit s0) = 64 /\
           forallb (fun e => match e with EvWrite _ _ (_ :: _) (Error _) => false | _ => true end) (e_trace e) = true /\
           match iterate linux 3 unit hi true T (takes_some 4000000000 4 20) s0 with
           | Ret s1 => match mget 4 (sv_conns unit s1) with
                       | Some e1 => last_success (e_born e1) (e_trace e1) = 4000000000 /\ p_size (sv_poller unit s1) = 64 /\
                           match iterate linux 3 unit hi true T (takes_some 8000000000 4 30) s1 with Ret _ => True | _ => False end
                       | None => False end
           | _ => False end
       | _, _ => False end)) as (s & H & K).
  - destruct linux; vm_compute; repeat split.
  - apply iterations_ok. vm_compute. reflexivity.
  - destruct (mget 4 (sv_conns unit s)) as [e|] eqn:E; [|destruct K].
    destruct (iterate linux 3 unit hi true T (at_time 2000000000 [arrives 5]) s) as [s0| | |] eqn:E0; try now destruct K.
    destruct K as (K1 & K2 & K3 & Ke & K4 & K5 & K).
    destruct (iterate linux 3 unit hi true T (takes_some 4000000000 4 20) s0) as [s1| | |] eqn:E1; try destruct K.
    destruct (mget 4 (sv_conns unit s1)) as [e1|] eqn:Ee; [|destruct K]. destruct K as (K6 & K7 & K).
    destruct (iterate linux 3 unit hi true T (takes_some 8000000000 4 30) s1) as [s2| | |] eqn:E2; try destruct K.
    exists s, e, s2. split; [exact H|]. split; [exact E|]. split; [exact K1|]. split; [exact K2|]. split.
    + apply Forall_forall. intros x Hx. rewrite forallb_forall in K5. specialize (K5 x Hx). destruct x as [| | | | | | | |]; try exact I.
      destruct res as [|]; [exact I|]. now destruct taken.
    + apply (drain_later _ _ _ _ _ _ _ s (at_time 2000000000 [arrives 5]) s0 [20; 30] s2); [|exact E0|].
      { split; [split; cbn; repeat constructor|intros evs [= <-]; cbn; intros [Q|[]]; discriminate|].
        intros e' He. unfold conn_at in He. assert (e' = e) by congruence. subst. change (it_clock (at_time 2000000000 [arrives 5]) 4) with 2000000000. lia. }
      apply (drain_more _ _ _ _ _ _ _ s0 _ _ 20 s1 [30] s2 (takes_some_ok linux s0 e 4 4000000000 20 Ke ltac:(lia) ltac:(lia) ltac:(lia)) E1).
      apply (drain_more _ _ _ _ _ _ _ s1 _ _ 30 s2 [] s2 (takes_some_ok linux s1 e1 4 8000000000 30 Ee ltac:(lia) ltac:(lia) ltac:(lia)) E2). constructor.
Qed.
