(** C131: what is left when a server has ended and is destroyed, and what is told of that. *)
From Verif Require Import Base BaseLemmas Huffman Http Conn SpecConn ConnLemmas ConnBasic ConnTerm ConnWit Poller Server SpecServer ServerProofs
  ServerReach PropServer AccessLog SpecApp AppProofs PropApp FilesServe Messages SpecDebug ServerMessages SpecServerMessages ServerMessagesProofs PropServerMessages
  ServerAgain ServerTrace SpecServerTrace ServerTraceProofs PropServerTrace ServerEnd ServerEndProofs.
From Coq Require Import Permutation.

(** start has ended: it returned, or it threw after the listener was made. *)
Definition has_ended {A} (x : out (bool * A)) : Prop := (exists s, x = Ret (true, s)) \/ x = Throw.
Lemma ended_loop {A} (x : out (bool * A)) : has_ended x -> (exists y, x = Ret y) \/ x = Throw.
Proof. intros [[s E]|E]; [left; now exists (true, s)|now right]. Qed.

(** What start leaves is what it returns, without the listener. *)
Theorem C131_left : forall linux listener W app cs T k0 w0 ok stopped its b s,
  start linux listener W app cs T true ok stopped k0 w0 its = Ret (b, s) ->
  left_start W linux listener app cs T ok stopped k0 w0 its = finish W listener s.
Proof.
  intros linux listener W app cs T k0 w0 ok stopped its b s E. unfold left_start. f_equal. unfold start in E. cbn [negb] in E. now apply left_loop_ret in E.
Qed.
Print Assumptions C131_left.

(** However start has ended, and in whatever order the connections are destroyed: the
    descriptors in use are those of before, each socket made since (the listener and those of
    clients) was closed, exactly once, nothing else was closed, and nothing is watched. *)
Theorem C131_given_back : forall linux listener W app cs T k0 w0 ok stopped its order,
  setting listener k0 -> Forall iteration_ok its ->
  has_ended (start linux listener W app cs T true ok stopped k0 w0 its) ->
  let s := left_start W linux listener app cs T ok stopped k0 w0 its in
  Permutation order (map fst (sv_conns W s)) ->
  let k := sv_kernel W (destroy W order s) in
  (forall fd, mget fd (k_open k) = mget fd (k_open k0)) /\ NoDup (k_closed k) /\
  (forall x, In x (k_closed k) <-> exists n, x = Some n /\ (k_objects k0 <= n < k_objects k)%nat) /\ k_watch k = [].
Proof.
  intros linux listener W app cs T k0 w0 ok stopped its order [H1 H2] Hok E s P k. unfold start in E. cbn [negb] in E.
  destruct (first_good linux listener W app cs T k0 w0 H1 H2 ok stopped) as [G N]. unfold first_state in G, N.
  assert (G' := left_loop_good linux listener W app cs T k0 w0 H2 its _ G N Hok (ended_loop _ E)).
  destruct (given_back linux listener W app cs T k0 w0 H2 _ order G' P) as (A & B & C & _ & D & _). auto.
Qed.
Print Assumptions C131_given_back.

(** Nothing is forgotten: each connection there was at the end is gone. *)
Theorem C131_connections : forall linux listener W app cs T k0 w0 ok stopped its order,
  setting listener k0 -> Forall iteration_ok its ->
  has_ended (start linux listener W app cs T true ok stopped k0 w0 its) ->
  let s := left_start W linux listener app cs T ok stopped k0 w0 its in
  Permutation order (map fst (sv_conns W s)) ->
  sv_conns W (destroy W order s) = [] /\
  forall e, In e (sv_gone W (destroy W order s)) <-> In e (sv_gone W s) \/ exists fd, conn_at W s fd e.
Proof.
  intros linux listener W app cs T k0 w0 ok stopped its order [H1 H2] Hok E s P. unfold start in E. cbn [negb] in E.
  destruct (first_good linux listener W app cs T k0 w0 H1 H2 ok stopped) as [G N]. unfold first_state in G, N.
  assert (G' := left_loop_good linux listener W app cs T k0 w0 H2 its _ G N Hok (ended_loop _ E)).
  destruct (given_back linux listener W app cs T k0 w0 H2 _ order G' P) as (_ & _ & _ & _ & _ & D). split; [|exact D].
  destruct (keys_perm linux listener W app cs T k0 w0 H2 _ order G' P) as [N' I]. destruct (finished linux listener W app cs T k0 w0 H2 _ G') as (F1 & _).
  destruct (destroy_spec true W order s N' I) as (X & _); [intros fd e C; apply F1; right; exists e; now split|].
  destruct (sv_conns W (destroy W order s)) as [|[fd e] l]; [reflexivity|]. specialize (X fd). cbn [mget] in X. rewrite Z.eqb_refl in X. discriminate.
Qed.
Print Assumptions C131_connections.

(** ** The messages *)
Lemma flat_closes tls order : Forall (fun fd => 0 <= fd) order -> closes (flat_map (destroy_trace tls) order) = lenZ order.
Proof.
  induction 1 as [|fd l H _ IH]; [reflexivity|]. cbn [flat_map]. rewrite closes_app, IH, lenZ_cons. destruct (kept_destroy tls 0 0 0 fd H) as [_ _ K _]. lia.
Qed.
Lemma flat_frees tls order : Forall (fun fd => 0 <= fd) order -> frees (flat_map (destroy_trace tls) order) = if tls then lenZ order else 0.
Proof.
  induction 1 as [|fd l H _ IH]; [now destruct tls|]. cbn [flat_map]. rewrite frees_app, IH, lenZ_cons. destruct (kept_destroy tls 0 0 0 fd H) as [_ _ _ K]. destruct tls; lia.
Qed.
Lemma flat_old tls order : Forall old (flat_map (destroy_trace tls) order).
Proof. induction order as [|fd l IH]; [constructor|]. cbn [flat_map]. apply Forall_app. split; [apply destroy_old|exact IH]. Qed.
Lemma numbered_length (l : list (option nat)) a b : NoDup l -> (a <= b)%nat ->
  (forall x, In x l <-> exists n, x = Some n /\ (a <= n < b)%nat) -> lenZ l = Z.of_nat b - Z.of_nat a.
Proof.
  intros N L H. assert (P : Permutation l (map Some (seq a (b - a)))).
  { apply NoDup_Permutation; [exact N|apply nodup_map; [intros x y _ _ K; now injection K|apply seq_NoDup]|].
    intros x. rewrite H, in_map_iff. split; intros (n & A & B); exists n; (split; [now symmetry|]); [apply in_seq|apply in_seq in B]; lia. }
  unfold lenZ. rewrite (Permutation_length P), map_length, seq_length. lia.
Qed.
Lemma five_lists (l1 l2 l3 l4 l5 : list message) :
  closes (l1 ++ l2 ++ l3 ++ l4 ++ l5) = closes l1 + (closes l2 + (closes l3 + (closes l4 + closes l5))) /\
  frees (l1 ++ l2 ++ l3 ++ l4 ++ l5) = frees l1 + (frees l2 + (frees l3 + (frees l4 + frees l5))) /\
  news (l1 ++ l2 ++ l3 ++ l4 ++ l5) = news l1 + (news l2 + (news l3 + (news l4 + news l5))).
Proof. split; [|split]; [rewrite !closes_app|rewrite !frees_app|rewrite !news_app]; reflexivity. Qed.

(** From start to the end of the server, with or without an exception: as many sockets are
    told to be closed as were made, and with TLS the state of each connection told of is
    told to be freed. *)
Theorem C131_balance : forall v port tls linux listener W app cs T k0 w0 ok stopped its order,
  setting listener k0 -> Forall iteration_ok its ->
  has_ended (start linux listener W app cs T true ok stopped k0 w0 its) ->
  let s := left_start W linux listener app cs T ok stopped k0 w0 its in
  Permutation order (map fst (sv_conns W s)) ->
  let ms := start_trace v linux listener tls W app cs T port true ok stopped k0 w0 its ++ end_trace tls W order s in
  closes ms = Z.of_nat (k_objects (sv_kernel W s)) - Z.of_nat (k_objects k0) /\
  frees ms = if tls then news ms else 0.
Proof.
  intros v port tls linux listener W app cs T k0 w0 ok stopped its order [H1 H2] Hok E s P ms. pose proof E as E'. unfold start in E. cbn [negb] in E.
  destruct (first_good linux listener W app cs T k0 w0 H1 H2 ok stopped) as [G N]. unfold first_state in G, N.
  set (s0 := set linux W ok listener PRead (Server W [] stopped new_poller (k_new listener k0) w0 [])) in *.
  assert (E1 : (exists x, loop linux listener W app cs T its s0 = Ret x) \/ loop linux listener W app cs T its s0 = Throw)
    by (destruct E as [[x E]|E]; [left; now exists (true, x)|now right]).
  assert (G' := left_loop_good linux listener W app cs T k0 w0 H2 its _ G N Hok E1).
  destruct (loop_told v linux listener tls W app cs T k0 w0 H2 its s0 G N Hok E1) as [T1 T2 T3].
  destruct (end_lines linux listener W app cs T k0 w0 H2 tls _ order G' P) as (L1 & L2 & L3).
  destruct (given_back linux listener W app cs T k0 w0 H2 _ order G' P) as (_ & B2 & B3 & B4 & _ & _).
  destruct (destroy_spec tls W order s) as (_ & _ & _ & D4 & D5 & _).
  { exact (proj1 (keys_perm linux listener W app cs T k0 w0 H2 _ order G' P)). }
  { exact (proj2 (keys_perm linux listener W app cs T k0 w0 H2 _ order G' P)). }
  { intros fd e C. apply (finished linux listener W app cs T k0 w0 H2 _ G'). right. exists e. now split. }
  assert (Y : forall x : out (bool * server W), has_ended x -> match x with Ret (true, _) | Throw => closing_trace listener | _ => [] end = closing_trace listener)
    by (intros x [[y ->]| ->]; reflexivity).
  assert (Z1 : ms = [info (str "listening on port " ++ to_string port)] ++
    set_messages v linux W ok listener PRead (Server W [] stopped new_poller (k_new listener k0) w0 []) ++
    loop_trace v linux listener tls W app cs T its s0 ++ closing_trace listener ++ end_trace tls W order s).
  { unfold ms, start_trace. cbn [negb]. fold s0. unfold start in E'. cbn [negb] in E'. fold s0 in E'. rewrite (Y _ E'), <- !app_assoc. reflexivity. }
  destruct (kept_still tls 0 0 0 _ (set_still v linux W ok listener PRead (Server W [] stopped new_poller (k_new listener k0) w0 []))) as [_ _ S3 S4].
  pose proof (old_news _ (still_old _ (set_still v linux W ok listener PRead (Server W [] stopped new_poller (k_new listener k0) w0 [])))) as S1.
  destruct (kept_close tls 0 0 0 listener (proj1 H2)) as [_ _ C3 C4].
  assert (C1 : news (closing_trace listener) = 0) by (apply old_news; unfold closing_trace; destruct (listener >=? 0); repeat constructor).
  destruct (finished linux listener W app cs T k0 w0 H2 _ G') as (_ & F2 & F3 & _).
  assert (K : lenZ (k_closed (sv_kernel W (destroy W order s))) = Z.of_nat (k_objects (sv_kernel W s)) - Z.of_nat (k_objects k0)).
  { pose proof (g_objects _ _ _ _ _ _ _ _ _ G') as GO. 
    rewrite <- D5. apply numbered_length; [exact B2| |exact B3]. rewrite D5. unfold s, left_start. fold s0. rewrite F3. lia. }
  destruct (set_counts linux W ok listener PRead (Server W [] stopped new_poller (k_new listener k0) w0 [])) as (Q1 & Q2 & Q3). fold s0 in Q1, Q2, Q3.
  cbn [sv_conns sv_kernel sv_gone k_new k_closed] in Q1, Q2, Q3. destruct H1 as (_ & _ & _ & K4). rewrite K4 in Q2. change (lenZ (@nil (Z * entry))) with 0 in Q1. change (lenZ (@nil (option nat))) with 0 in Q2. change (lenZ (@nil entry)) with 0 in Q3.
  assert (K' : lenZ (k_closed (sv_kernel W (destroy W order s))) = lenZ (k_closed (sv_kernel W (left_loop W linux listener app cs T its s0))) + 1 + lenZ order).
  { rewrite D4. unfold s, left_start. fold s0. rewrite F2, !lenZ_app. unfold lenZ at 2 3. cbn [length]. rewrite map_length. unfold lenZ. lia. }
  fold s0 in L1. change (end_trace tls W order s = flat_map (destroy_trace tls) order) in L1.
  pose proof (flat_closes tls order L2) as X1. pose proof (flat_frees tls order L2) as X2. pose proof (old_news _ (flat_old tls order)) as X3. rewrite <- L1 in X1, X2, X3.
  clearbody ms. subst ms.
  assert (I0 : closes [info (str "listening on port " ++ to_string port)] = 0 /\ frees [info (str "listening on port " ++ to_string port)] = 0 /\
    news [info (str "listening on port " ++ to_string port)] = 0) by (repeat split). destruct I0 as (I1 & I2 & I3).
  clear - S1 S3 S4 C1 C3 C4 X1 X2 X3 T1 T2 T3 Q1 Q2 Q3 I1 I2 I3 K K' L3. revert S1 S3 S4 C1 C3 C4 X1 X2 X3 T1 T2 T3 I1 I2 I3.
  generalize [info (str "listening on port " ++ to_string port)] (set_messages v linux W ok listener PRead (Server W [] stopped new_poller (k_new listener k0) w0 []))
    (loop_trace v linux listener tls W app cs T its s0) (closing_trace listener) (end_trace tls W order s).
  intros l1 l2 l3 l4 l5. intros. destruct (five_lists l1 l2 l3 l4 l5) as (Y1 & Y2 & Y3). rewrite Y1, Y2, Y3.
  rewrite S1, S3, S4, C1, C3, C4, X1, X2, X3, T1, T2, T3, Q1, Q2, Q3, I1, I2, I3, <- K, K', L3. clear.
  generalize (lenZ (k_closed (sv_kernel W (left_loop W linux listener app cs T its s0)))) (lenZ (sv_conns W (left_loop W linux listener app cs T its s0)))
    (lenZ (sv_gone W (left_loop W linux listener app cs T its s0))). clear. intros a b c. split; [lia|]. destruct tls; lia.
Qed.
Print Assumptions C131_balance.

(** While the server is destroyed, the sockets told to be closed are those of its connections,
    each once. *)
Theorem C131_closed : forall tls linux listener W app cs T k0 w0 ok stopped its order n,
  setting listener k0 -> Forall iteration_ok its ->
  has_ended (start linux listener W app cs T true ok stopped k0 w0 its) ->
  let s := left_start W linux listener app cs T ok stopped k0 w0 its in
  Permutation order (map fst (sv_conns W s)) ->
  let ms := end_trace tls W order s in
  (In (close_line n) ms <-> exists fd e, decimal n fd /\ conn_at W s fd e) /\
  closes ms = lenZ (sv_conns W s) /\ NoDup (filter tells_of_close ms) /\
  (tls = true -> forall ms1 ms2, ms = ms1 ++ close_line n :: ms2 -> exists ms0, ms1 = ms0 ++ [Msg LDebug (str "freeing OpenSSL")]).
Proof.
  intros tls linux listener W app cs T k0 w0 ok stopped its order n [H1 H2] Hok E s P ms. unfold start in E. cbn [negb] in E.
  destruct (first_good linux listener W app cs T k0 w0 H1 H2 ok stopped) as [G N]. unfold first_state in G, N.
  assert (G' := left_loop_good linux listener W app cs T k0 w0 H2 its _ G N Hok (ended_loop _ E)).
  destruct (end_lines linux listener W app cs T k0 w0 H2 tls _ order G' P) as (L1 & L2 & L3). destruct (keys_perm linux listener W app cs T k0 w0 H2 _ order G' P) as [N' I].
  change (ms = flat_map (destroy_trace tls) order) in L1. rewrite L1. clear L1 ms.
  assert (X : forall fd, 0 <= fd -> destroy_trace tls fd = (if tls then [Msg LDebug (str "freeing OpenSSL")] else []) ++ [close_line (to_string fd)]).
  { intros fd H. unfold destroy_trace, closing_trace. apply Z.leb_le in H. rewrite Z.geb_leb, H. reflexivity. }
  assert (C : filter tells_of_close (flat_map (destroy_trace tls) order) = map (fun fd => close_line (to_string fd)) order).
  { clear -L2 X. induction L2 as [|fd l H _ IH]; [reflexivity|]. cbn [flat_map map]. rewrite filter_app, IH, (X fd H). now destruct tls. }
  split; [|split; [|split]].
  - transitivity (In (close_line n) (filter tells_of_close (flat_map (destroy_trace tls) order))).
    { rewrite filter_In. split; [intros K; split; [exact K|reflexivity]|now intros [K _]]. }
    rewrite C, in_map_iff. split.
    + intros (fd & K & Hi). injection K as K. destruct (proj1 (I fd) Hi) as [e Ce]. exists fd, e. split; [|exact Ce]. rewrite <- K. apply to_string_spec. rewrite Forall_forall in L2. now apply L2.
    + intros (fd & e & D & Ce). assert (Hi : In fd order) by (apply I; now exists e). exists fd. split; [|exact Hi]. unfold close_line. do 2 f_equal.
      apply (decimal_unique _ n fd); [|exact D]. apply to_string_spec. rewrite Forall_forall in L2. now apply L2.
  - unfold closes. rewrite C. unfold s, left_start. cbn [finish sv_conns]. rewrite <- L3. unfold lenZ. now rewrite map_length.
  - rewrite C. apply nodup_map; [|exact N']. rewrite Forall_forall in L2. intros x y Kx Ky K. injection K as K.
    pose proof (proj1 (to_string_spec x (L2 x Kx))) as Dx. rewrite K in Dx. exact (decimal_value _ _ _ Dx (proj1 (to_string_spec y (L2 y Ky)))).
  - intros Ht. subst tls. clear -L2 X. induction L2 as [|fd l H _ IH]; intros ms1 ms2 K; [now destruct ms1|]. cbn [flat_map] in K. rewrite (X fd H) in K. cbn [List.app] in K.
    destruct ms1 as [|m1 [|m2 ms1]]; [discriminate K| |].
    + injection K as K _ _. exists []. cbn [List.app]. now rewrite <- K.
    + cbn [List.app] in K. injection K as K1 K2 K. destruct (IH _ _ K) as [ms0 K0]. exists (m1 :: m2 :: ms0). now rewrite K0.
Qed.
Print Assumptions C131_closed.

(** Above level debug nothing is told of it. *)
Theorem C131_quiet : forall tls W order s, louder (end_trace tls W order s) = [].
Proof. intros tls W order. induction order as [|fd order IH]; intros s; [reflexivity|]. cbn [end_trace]. rewrite louder_app, IH, loud_erase. reflexivity. Qed.
Print Assumptions C131_quiet.

(** ** Cases *)
(** Two clients are served; the socket of the third cannot be made non-blocking, which ends start. *)
Definition cut_short : list iteration := [at_time 0 [arrives 4]; at_time 0 [arrives 5]; at_time 0 [(3, (1, PropServer.quiet (AcceptFd 6 false) nothing))]].
Example C131_case : forall linux T, let s := left_start unit linux 3 hi true T true None k_std tt cut_short in
  start linux 3 unit hi true T true true None k_std tt cut_short = Throw /\ Forall iteration_ok cut_short /\ Permutation [5; 4] (map fst (sv_conns unit s)) /\
  mget 4 (k_open (sv_kernel unit s)) = Some 4%nat /\ mget 3 (k_open (sv_kernel unit s)) = None /\
  k_objects (sv_kernel unit (destroy unit [5; 4] s)) = 7%nat /\ k_closed (sv_kernel unit (destroy unit [5; 4] s)) = [Some 6; Some 3; Some 5; Some 4]%nat /\
  k_objects k_std = 3%nat /\
  end_trace true unit [5; 4] s = [Msg LDebug (str "freeing OpenSSL"); Msg LTrace (str "closing socket fd 5"); Msg LDebug (str "freeing OpenSSL"); Msg LTrace (str "closing socket fd 4")] /\
  closes (start_trace a_voice linux 3 true unit hi true T 8443 true true None k_std tt cut_short ++ end_trace true unit [5; 4] s) = 4 /\
  frees (start_trace a_voice linux 3 true unit hi true T 8443 true true None k_std tt cut_short ++ end_trace true unit [5; 4] s) = 2.
Proof.
  intros linux T s. split; [destruct linux; vm_compute; reflexivity|]. split; [apply iterations_ok; vm_compute; reflexivity|].
  split; [|destruct linux; vm_compute; repeat split; reflexivity].
  assert (X : map fst (sv_conns unit s) = [5; 4]) by (destruct linux; vm_compute; reflexivity). rewrite X. apply Permutation_refl.
Qed.
(** The server is stopped while it has a connection. *)
Example C131_stopped_case : forall T, let s := left_start unit true 3 hi true T true None k_std tt told_run in
  has_ended (start true 3 unit hi true T true true None k_std tt told_run) /\ exists fd, map fst (sv_conns unit s) = [fd] /\
  mget fd (k_open (sv_kernel unit s)) <> None /\ mget fd (k_open (sv_kernel unit (destroy unit [fd] s))) = None /\ lenZ (sv_gone unit (destroy unit [fd] s)) = 3.
Proof.
  intros T s. split; [left; eexists; vm_compute; reflexivity|]. eexists. split; [vm_compute; reflexivity|]. vm_compute. repeat split; discriminate.
Qed.
