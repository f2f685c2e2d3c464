(** C99: signals, the console, and how the program ends. *)
From Verif Require Import Base BaseLemmas Huffman HuffmanProofs Http Conn FileSys Router App AccessLog SpecLog Poller Server Main Console ConsoleProofs
  PropServer PropApp PropLog.

(** ** C99 *)
(** Whatever signals arrive when, and whatever becomes of the console: a signal handler never
    uses a server that is no more. *)
Theorem C99_server_there : forall linux listener page cs T library made ok otel privs opened log_path log_level a k0 w0 closing early ready late brink its,
  console_main linux listener page cs T library made ok otel privs opened log_path log_level a k0 w0 closing early ready late brink its <> Stale.
Proof. exact never_stale. Qed.
Print Assumptions C99_server_there.
(** A signal ends the process only if it arrives, or a message causes it, before the handlers
    are set up or after start has ended. *)
Theorem C99_killed : forall linux listener page cs T library made ok otel privs opened log_path log_level a k0 w0 closing early ready late brink its k,
  console_main linux listener page cs T library made ok otel privs opened log_path log_level a k0 w0 closing early ready late brink its = Killed k ->
  exists m, In m (early ++ late) /\
    match k with
    | KInt => In SigInt (mo_signals m)
    | KTerm => In SigTerm (mo_signals m)
    | KPipe => (exists out err, In (SigPipe out err) (mo_signals m)) \/ mo_out m = Pipe true
    end.
Proof.
  intros linux listener page cs T library made ok otel privs opened log_path log_level a k0 w0 closing early ready late brink its k H.
  apply why_killed in H as (m & Hm & K). exists m. split; [exact Hm|].
  destruct K as [([| |out err] & Hs & <-)|[-> K]]; cbn [kind_of]; eauto.
Qed.
Print Assumptions C99_killed.
(** SIGINT and SIGTERM before start, but after the handlers are set up, are not lost: the
    server stops as soon as it is started. *)
Theorem C99_in_time : forall linux listener page cs T library ok otel privs opened log_path log_level l a k0 w0 closing early ready late brink its s,
  Forall uneventful early -> Forall uneventful late ->
  log_level_enum log_level = Ret l -> new_server (w_os w0) library (to_server_config a) = Ret tt ->
  In s (brink ++ flat_map mo_signals (firstn (length (routes a)) ready)) -> s = SigInt \/ s = SigTerm ->
  console_main linux listener page cs T library true ok otel privs opened log_path log_level a k0 w0 closing early ready late brink its = Ends 0.
Proof.
  intros linux listener page cs T library ok otel privs opened log_path log_level l a k0 w0 closing early ready late brink its s H1 H2 Hl Hn Hi Hs.
  destruct (program_calm linux listener page cs T library true ok otel privs opened log_path log_level a k0 w0 closing early ready late brink its H1 H2) as (stopped & _ & K & ->).
  rewrite Hl, Hn. cbn [obind]. assert (Hx : stopped <> None) by (apply K; exists s; now split). destruct stopped as [r|]; [|now destruct Hx].
  unfold start. cbn [negb]. destruct (map _ its); cbn [loop]; unfold set, set_poller; cbn [sv_stop]; reflexivity.
Qed.
Print Assumptions C99_in_time.
Lemma steps_firstn linux l : forall env p, steps linux env l p = steps linux (firstn (length l) env) l p.
Proof.
  induction l as [|x l IH]; intros env p; [reflexivity|]. cbn [steps length]. destruct env as [|m env]; cbn [firstn hd tl]; [reflexivity|].
  destruct (go_on (signals linux (mo_signals m) p) _); cbn [go_on]; [apply IH|reflexivity].
Qed.
(** While the handlers are set up, each signal has its own: SIGINT ends the process until the
    moment before the third statement after the opening (the first makes the server, the second
    tells the handlers of it), SIGTERM until the fourth; from then on it is not lost either. *)
Theorem C99_each_handler : forall linux listener page cs T library ok otel privs opened log_path log_level l a k0 w0 closing e1 m e2 ready late brink its j,
  log_level_enum log_level = Ret l -> new_server (w_os w0) library (to_server_config a) = Ret tt ->
  Forall uneventful (e1 ++ late) -> length e1 = (length (opening linux otel privs opened log_path l) + j)%nat -> (j <= 4)%nat ->
  Forall uneventful e2 ->
  let fate := console_main linux listener page cs T library true ok otel privs opened log_path log_level a k0 w0 closing (e1 ++ m :: e2) ready late brink its in
  (mo_signals m = [SigInt] -> fate = if (j <=? 2)%nat then Killed KInt else Ends 0) /\
  (mo_signals m = [SigTerm] -> fate = if (j <=? 3)%nat then Killed KTerm else Ends 0).
Proof.
  intros linux listener page cs T library ok otel privs opened log_path log_level l a k0 w0 closing e1 m e2 ready late brink its j Hl Hn H Hj Hj4 H2.
  apply Forall_app in H as [H1 H3]. intros fate.
  set (n := length (opening linux otel privs opened log_path l)) in *.
  set (p := effects linux (opening linux otel privs opened log_path l) (Proc false false false false false None LInfo)).
  assert (P : p_int p = false /\ p_term p = false /\ p_pipe p = false /\ p_points p = false).
  { subst p. unfold opening. destruct otel, linux, log_path; repeat split. }
  assert (G : fate = match go_on (go_on (steps linux (skipn n e1 ++ m :: e2) (Make :: setup) p) (steps linux ready (routes a))) (signals linux brink) with
    | Over f => f
    | On p => match start linux listener world (main_app page a) cs T true ok (p_stop p) k0 w0 (map (with_signals linux) its) with
          | Ret (true, _) => Ends 0
          | Ret (false, _) => Runs
          | Throw => Ends 1
          | Undef | Fuel => NotDefined
          end
    end).
  { subst fate. unfold console_main. rewrite Hl, Hn, steps_firstn. fold n.
    rewrite firstn_app. replace (n - length e1)%nat with 0%nat by lia. cbn [firstn]. rewrite app_nil_r.
    rewrite steps_calm by (apply Forall_forall; intros x Hx; rewrite Forall_forall in H1; apply H1; rewrite <- (firstn_skipn n e1); apply in_or_app; now left).
    fold p. rewrite skipn_app. replace (n - length e1)%nat with 0%nat by lia. cbn [skipn].
    destruct (go_on _ _) as [q|f]; [|reflexivity]. destruct (start _ _ _ _ _ _ _ _ _ _ _ _) as [[[] s]| | |]; try reflexivity; now rewrite steps_calm by exact H3. }
  assert (Hs : Forall uneventful (skipn n e1)) by (apply Forall_forall; intros x Hx; apply skipn_in in Hx; rewrite Forall_forall in H1; auto).
  assert (Lj : length (skipn n e1) = j) by (rewrite skipn_length; lia).
  rewrite G. clear G fate Hj H1 Hl. revert Hs Lj. generalize (skipn n e1). intros pre Hs Lj. clearbody p. clear e1 n.
  assert (S : forall q, all_caught q -> p_stop q <> None ->
    match go_on (go_on (On q) (steps linux ready (routes a))) (signals linux brink) with
    | Over f => f
    | On p => match start linux listener world (main_app page a) cs T true ok (p_stop p) k0 w0 (map (with_signals linux) its) with
          | Ret (true, _) => Ends 0
          | Ret (false, _) => Runs
          | Throw => Ends 1
          | Undef | Fuel => NotDefined
          end
    end = Ends 0).
  { intros q Qc Qs. cbn [go_on]. destruct (caught_steps linux ready (routes a) q (routes_talk a) Qc) as (r & -> & S1 & R). cbn [go_on].
    destruct (caught_signals linux brink r R) as (z & -> & S2 & _).
    assert (Hz : p_stop z <> None).
    { destruct S2 as (_ & _ & _ & _ & _ & _ & S2). apply S2. destruct S1 as (_ & _ & _ & _ & _ & _ & S1). apply S1.
      destruct (effects_talk linux (routes a) (routes_talk a) q) as (_ & _ & _ & _ & _ & ->). exact Qs. }
    destruct (p_stop z) as [x|]; [|now destruct Hz]. unfold start. cbn [negb]. destruct (map _ its); cbn [loop]; unfold set, set_poller; cbn [sv_stop]; reflexivity. }
  destruct p as [pi pt pp po ex st lv]. cbn [p_int p_term p_pipe p_points] in P. destruct P as (-> & -> & -> & ->).
  assert (E : forall x, uneventful x -> mo_signals x = []) by (intros x [Hx _]; exact Hx).
  assert (Hh : mo_signals (hd calm e2) = []) by (destruct H2; [reflexivity|now apply E]).
  destruct pre as [|x0 [|x1 [|x2 [|x3 [|x4 pre]]]]]; cbn [length] in Lj; subst j; try (exfalso; lia);
    repeat match goal with H : Forall uneventful (_ :: _) |- _ => apply Forall_inv_tail in H as ?; apply Forall_inv in H; apply E in H end;
    split; intros Hm; unfold setup; cbn [Datatypes.app steps hd tl];
    repeat match goal with H : mo_signals _ = _ |- _ => rewrite H; clear H end;
    cbn [signals fold_left go_on do_step arrive kind_of caught p_int p_term p_pipe p_points p_exists p_stop p_level set_caught signal_stops stop_server Nat.leb]; try reflexivity.
  all: apply S; [repeat split|discriminate].
Qed.
Print Assumptions C99_each_handler.
(** If nothing happens but during start, and there is a console, the program ends as main does
    (C85). *)
Theorem C99_ends_partial : forall linux listener page cs T library made ok otel privs opened log_path log_level a k0 w0 closing early ready late its,
  Forall uneventful early -> Forall uneventful ready -> Forall uneventful late ->
  console_main linux listener page cs T library made ok otel privs opened log_path log_level a k0 w0 closing early ready late [] its =
  match main linux listener page cs T library made ok log_level a k0 w0 its with
  | Exits c => Ends c
  | Uncaught => Aborts
  | Undefined => NotDefined
  | Running => Runs
  end.
Proof.
  intros linux listener page cs T library made ok otel privs opened log_path log_level a k0 w0 closing early ready late its H1 H2 H3.
  destruct (program_calm linux listener page cs T library made ok otel privs opened log_path log_level a k0 w0 closing early ready late [] its H1 H3) as (stopped & K & _ & ->).
  rewrite (K H2 eq_refl). unfold main. destruct (log_level_enum log_level); try reflexivity.
  destruct (obind _ _) as [[[] s]| | |]; reflexivity.
Qed.
Print Assumptions C99_ends_partial.
(** But if nobody reads standard output any more when the program is about to end with exit
    code 0, then it is killed by its last message, unless the log level suppresses that. *)
Theorem C99_console_gone : forall linux listener page cs T library made ok otel privs opened log_path log_level a k0 w0 closing early ready late brink its l late1 m late2,
  Forall uneventful early -> Forall uneventful ready -> brink = [] ->
  late = late1 ++ m :: late2 -> Forall uneventful late1 -> length late1 = length (leave closing) -> mo_signals m = [] -> mo_out m = Pipe true ->
  log_level_enum log_level = Ret l -> severity l <= severity LInfo ->
  main linux listener page cs T library made ok log_level a k0 w0 its = Exits 0 ->
  console_main linux listener page cs T library made ok otel privs opened log_path log_level a k0 w0 closing early ready late brink its = Killed KPipe.
Proof. exact goodbye. Qed.
Print Assumptions C99_console_gone.
(** In full: nobody sends the process a signal outside start; then it is not killed. *)
Definition undisturbed (m : moment) : Prop := mo_signals m = [].
Definition gone : moment := Moment [] (Pipe true) OtherStream.
Definition whole (linux : bool) (early ready late : list moment) (brink : list signal) (its : list (list signal)) : fate :=
  console_main linux 3 plain_page true the_tree true true true true true true (str "access.log") (str "info") some_args k_std a_world [LDebug; LTrace] early ready late brink (map (pair idle) its).
Theorem C99_console_refuted : ~ forall linux listener page cs T library made ok otel privs opened log_path log_level a k0 w0 closing early ready late brink its k,
  Forall undisturbed (early ++ late) ->
  console_main linux listener page cs T library made ok otel privs opened log_path log_level a k0 w0 closing early ready late brink its <> Killed k.
Proof.
  intros H. refine (H true 3 plain_page true the_tree true true true true true true (str "access.log") (str "info") some_args k_std a_world [LDebug; LTrace]
    [] [] (repeat calm 7 ++ [gone]) [] (map (pair idle) [[]; [SigTerm]]) KPipe _ _).
  - repeat constructor.
  - vm_compute. reflexivity.
Qed.
Print Assumptions C99_console_refuted.
(** With log level off it is so, whatever becomes of the console, as long as the program does
    not say that telemetry is disabled: that message comes before the level is set. *)
Theorem C99_off_partial : forall linux listener page cs T library made ok privs opened log_path a k0 w0 closing early ready late brink its k,
  Forall undisturbed (early ++ late) -> ~ In LOff closing ->
  console_main linux listener page cs T library made ok false privs opened log_path (str "off") a k0 w0 closing early ready late brink its <> Killed k.
Proof. intros. apply Forall_app in H as [H1 H2]. now apply never_killed. Qed.
Print Assumptions C99_off_partial.
Theorem C99_off_refuted : forall linux listener page cs T library made ok privs opened log_path log_level a k0 w0 closing m early ready late brink its l,
  mo_signals m = [] -> mo_out m = Pipe true -> log_level_enum log_level = Ret l ->
  console_main linux listener page cs T library made ok true privs opened log_path log_level a k0 w0 closing (m :: early) ready late brink its = Killed KPipe.
Proof.
  intros linux listener page cs T library made ok privs opened log_path log_level a k0 w0 closing [sg o e] early ready late brink its l Hm Ho Hl. cbn in Hm, Ho. subst. unfold console_main. rewrite Hl. reflexivity.
Qed.
Print Assumptions C99_off_refuted.
Definition silent (otel : bool) (early ready late : list moment) : fate :=
  console_main true 3 plain_page true the_tree true true true otel true true (str "access.log") (str "off") some_args k_std a_world [LDebug; LTrace] early ready late [] (map (pair idle) [[]; [SigTerm]]).
Example C99_off_case :
  silent false [calm; gone; gone; gone; gone] [gone; gone] (repeat gone 8) = Ends 0 /\ silent true [gone] [] [] = Killed KPipe /\
  log_level_enum (str "off") = Ret LOff.
Proof. repeat split; vm_compute; reflexivity. Qed.
(** The opening has five statements here. *)
Example C99_each_handler_case :
  length (opening true true true true (str "access.log") LInfo) = 5%nat /\
  map (fun n => whole true (repeat calm n ++ [Moment [SigInt] OtherStream OtherStream]) [] [] [] [[]; []]) [5; 6; 7; 8; 9]%nat =
    [Killed KInt; Killed KInt; Killed KInt; Ends 0; Ends 0] /\
  map (fun n => whole true (repeat calm n ++ [Moment [SigTerm] OtherStream OtherStream]) [] [] [] [[]; []]) [5; 6; 7; 8; 9]%nat =
    [Killed KTerm; Killed KTerm; Killed KTerm; Killed KTerm; Ends 0].
Proof. repeat split; vm_compute; reflexivity. Qed.
(** Signals at various moments; Linux. *)
Example C99_case :
  whole true [] [] [] [] [[]; [SigTerm]] = Ends 0 /\
  whole true [] [Moment [SigInt; SigPipe (Pipe true) (Pipe false)] (Pipe true) (Pipe true)] [] [] [[]; []] = Ends 0 /\
  whole true [] [] [] [SigTerm] [[]; []] = Ends 0 /\
  whole true [] [gone; gone] [] [] [[]; []] = Runs /\
  whole false [] [gone; gone] [] [] [[]; []] = Ends 0 /\
  whole true [Moment [SigInt] OtherStream OtherStream] [] [] [] [] = Killed KInt /\
  whole true [] [] [calm; Moment [SigInt] OtherStream OtherStream] [] [[SigTerm]] = Killed KInt /\
  whole true [] [] [calm; Moment [SigTerm] OtherStream OtherStream] [] [[SigTerm]] = Ends 0 /\
  whole true [] [] (repeat calm 7 ++ [gone]) [] [[SigTerm]] = Killed KPipe.
Proof. repeat split; vm_compute; reflexivity. Qed.
