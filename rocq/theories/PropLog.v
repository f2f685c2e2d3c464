(** C82-C85: the access log of the whole server, log levels, signals. *)
From Verif Require Import Base BaseLemmas Huffman HuffmanProofs Http Conn SpecConn ConnWit FileSys Files PropFiles Router App AccessLog SpecApp AppProofs PropApp
  Poller Server SpecServer ServerProofs ServerReach ServerHistory PropServer PropServer2 Main SpecLog LogProofs.

(** ** C82.  The access log has one line for each response of each connection, in the order
    in which the requests were handled, and the address is that of the connection. *)
Theorem C82_log : forall linux listener W app cs T k0 w0 ok A pending s,
  (forall rq w w' r, app rq w = (w', Answers r) -> 0 <= rs_status r) ->
  setting listener k0 -> reached linux listener W app cs T k0 w0 ok A pending s ->
  exists h xs, chronicle W app w0 s h /\ Forall (fun x => handling_ok (snd x)) xs /\
    asked_in h = flat_map (fun x => map (pair (fst x)) (asked_by (snd x))) xs /\
    forall peers ts, (forall n, peer_ok (peers n)) -> Forall tm_ok ts -> length ts = length (log_calls h) ->
      written peers xs ts (server_log true peers ts (log_calls h)) /\
      (Forall (fun x => match snd x with Replied hs _ _ => fields_clean hs | _ => True end) xs ->
       count 10 (server_log true peers ts (log_calls h)) = length ts).
Proof.
  intros linux listener W app cs T k0 w0 ok A pending s Hst [H1 H2] H.
  destruct (reached_told _ _ _ _ _ _ _ _ H1 H2 _ _ _ _ H) as [_ (h & Hh & Hc)].
  destruct (calls_noted W app cs T Hst h Hc) as (xs & K1 & K2 & K3). exists h, xs. split; [exact Hh|]. split; [exact K1|]. split; [exact K2|].
  intros peers ts Hp Ht Hl. rewrite K3 in Hl |- *. pose proof (log_written peers xs Hp K1 ts Ht Hl) as Hw. split; [exact Hw|].
  exact (written_lines peers xs ts _ Hp Hw).
Qed.
Print Assumptions C82_log.
(** Two clients, three requests: one of the first, then one of the second, then another. *)
Definition two_peers (n : nat) : peer := if Nat.eqb n 4 then PeerV4 10 0 0 1 else PeerV6 (str "fe80::1").
Definition three_times : list tm := [a_time; Tm 9 10 126 8 5 8 (-12600); Tm 9 10 126 8 5 9 (-12600)].
Definition quoted (s : String.string) : bytes := [34] ++ str s ++ [34].
Definition three_lines : bytes :=
  str "fe80::1 - - [09/Nov/2026:08:05:07 -0330] " ++ quoted "GET / HTTP/2" ++ str " 200 1 " ++ quoted "-" ++ str " " ++ quoted "-" ++ [10] ++
  str "10.0.0.1 - - [09/Nov/2026:08:05:08 -0330] " ++ quoted "GET / HTTP/2" ++ str " 200 1 " ++ quoted "-" ++ str " " ++ quoted "-" ++ [10] ++
  str "10.0.0.1 - - [09/Nov/2026:08:05:09 -0330] " ++ quoted "GET / HTTP/2" ++ str " 200 1 " ++ quoted "-" ++ str " " ++ quoted "-" ++ [10].
Definition all_events (s : server Z) : list (nat * event) :=
  flat_map (fun e => map (pair (e_socket e)) (e_trace e)) (sv_gone Z s ++ map snd (sv_conns Z s)).
Example C82_case : forall linux T, (forall n, peer_ok (two_peers n)) /\ Forall tm_ok three_times /\
  (forall rq w w' r, counting rq w = (w', Answers r) -> 0 <= rs_status r) /\
  exists s, reached linux 3 Z counting true T k_std 10 true enough_resources [] s /\
    map e_socket (sv_gone Z s ++ map snd (sv_conns Z s)) = [5; 4]%nat /\
    server_log true two_peers three_times (log_calls (all_events s)) = three_lines.
Proof.
  intros linux T. split; [|split; [|split]].
  - intros n. unfold two_peers. destruct (Nat.eqb n 4); cbn [peer_ok].
    + repeat apply Forall_cons; try apply Forall_nil; unfold is_byte; lia.
    + split; [discriminate|]. cbn. repeat (apply Forall_cons; [lia|]). apply Forall_nil.
  - repeat (apply Forall_cons; [unfold tm_ok; cbn; lia|]). apply Forall_nil.
  - intros rq w w' r [= _ <-]. cbn. lia.
  - destruct linux; run turns.
Qed.

(** ** C83.  With a log file that can be opened, the lines are written at the levels trace,
    debug and info only: the level of the console messages also applies to the access log.
    Without the option there is no log. *)
Theorem C83_levels_partial : forall name path opened,
  In name [str "trace"; str "debug"; str "info"] ->
  exists l, log_level_enum name = Ret l /\ forall peers ts calls,
    (path <> [] -> server_log (logger_on path true l) peers ts calls = server_log true peers ts calls) /\
    server_log (logger_on [] opened l) peers ts calls = [].
Proof.
  intros name path opened H.
  assert (K : forall l, logger_on [] opened l = false) by reflexivity.
  destruct H as [<-|[<-|[<-|[]]]]; eexists; (split; [reflexivity|]); intros peers ts calls; (split; [|rewrite K; apply no_logger]);
    (intros Hp; destruct path as [|x path]; [easy|reflexivity]).
Qed.
Print Assumptions C83_levels_partial.
Example C83_case : In (str "info") [str "trace"; str "debug"; str "info"] /\ str "/var/log/ion.log" <> [].
Proof. split; [cbn; tauto|discriminate]. Qed.
Theorem C83_levels_refuted : forall path opened linux T, exists name l s, level_accepted name /\ log_level_enum name = Ret l /\
  reached linux 3 Z counting true T k_std 10 true enough_resources [] s /\ length (log_calls (all_events s)) = 3%nat /\
  forall peers ts, server_log (logger_on path opened l) peers ts (log_calls (all_events s)) = [].
Proof.
  intros path opened linux T. exists (str "warn"), LWarn.
  assert (K : exists s, reached linux 3 Z counting true T k_std 10 true enough_resources [] s /\ length (log_calls (all_events s)) = 3%nat) by (destruct linux; run turns).
  destruct K as (s & K1 & K2). exists s. split; [cbn; tauto|]. split; [reflexivity|]. split; [exact K1|]. split; [exact K2|].
  intros peers ts. replace (logger_on path opened LWarn) with false; [apply no_logger|]. unfold logger_on. destruct path; [reflexivity|]. now destruct opened.
Qed.
Print Assumptions C83_levels_refuted.

(** ** C84.  Every spelling of a log level that the option takes is understood.  False: the
    option takes any mixture of cases, log_level_enum throws for all but lower case, and
    nothing catches the exception. *)
Theorem C84_levels_partial : forall linux listener page cs T library made ok name a k0 w0 its,
  level_accepted name -> lower name = name ->
  main linux listener page cs T library made ok name a k0 w0 its <> Uncaught.
Proof.
  intros linux listener page cs T library made ok name a k0 w0 its H E. unfold level_accepted in H. rewrite E in H. unfold main.
  assert (K : exists l, log_level_enum name = Ret l) by (destruct H as [<-|[<-|[<-|[<-|[<-|[<-|[<-|[]]]]]]]]; eexists; reflexivity).
  destruct K as (l & ->). destruct (obind _ _) as [[[] s]| | |]; discriminate.
Qed.
Print Assumptions C84_levels_partial.
Theorem C84_levels_refuted : forall linux listener page cs T library made ok name a k0 w0 its,
  level_accepted name -> lower name <> name -> main linux listener page cs T library made ok name a k0 w0 its = Uncaught.
Proof.
  intros linux listener page cs T library made ok name a k0 w0 its H N. unfold main.
  assert (K : log_level_enum name = Throw); [|now rewrite K].
  unfold log_level_enum. destruct (find _ level_map) as [[n l]|] eqn:F; [|reflexivity]. exfalso. apply find_some in F as [F1 F2].
  cbn [fst] in F2. apply bytes_eqb_eq in F2. subst n. apply N.
  unfold level_map in F1. repeat (destruct F1 as [F1|F1]; [injection F1 as <- _; reflexivity|]). destruct F1.
Qed.
Print Assumptions C84_levels_refuted.
Example C84_case : level_accepted (str "error") /\ lower (str "error") = str "error" /\ level_accepted (str "INFO") /\ lower (str "INFO") <> str "INFO".
Proof. split; [cbn; tauto|]. split; [reflexivity|]. split; [cbn; tauto|discriminate]. Qed.

(** ** C85.  SIGINT and SIGTERM end the program with exit code 0; SIGPIPE, which a client
    causes by going away, does not, unless standard output or error is gone. *)
Definition harmless (s : signal) : Prop :=
  match s with
  | SigPipe out err => out <> Pipe true /\ err <> Pipe true
  | _ => False
  end.
Lemma harmless_stops linux s : harmless s -> signal_stops linux s = [].
Proof.
  destruct s as [| |out err]; intros H; [destruct H..|]. destruct H as [H1 H2].
  assert (K : forall x, x <> Pipe true -> null_write_fails linux x = false).
  { intros [[]|] Hx; cbn; [now destruct Hx|now destruct linux|reflexivity]. }
  cbn [signal_stops]. now rewrite (K _ H1), (K _ H2).
Qed.
Lemma harmless_all linux l : Forall harmless l -> flat_map (signal_stops linux) l = [].
Proof. induction 1 as [|s l H _ IH]; [reflexivity|]. cbn [flat_map]. now rewrite (harmless_stops linux s H), IH. Qed.
Lemma not_stopped linux listener page cs T library made ok name a k0 w0 its :
  Forall (fun it => it_stops it = []) (map (with_signals linux) its) ->
  main linux listener page cs T library made ok name a k0 w0 its <> Exits 0.
Proof.
  intros H. unfold main. destruct (log_level_enum name); try discriminate.
  destruct (new_server _ _ _) as [u| | |]; cbn [obind]; try discriminate.
  destruct (start _ _ _ _ _ _ _ _ _ _ _ _) as [[b s]| | |] eqn:E; try discriminate.
  destruct (C51_only_then _ _ _ _ _ _ _ _ _ _ _ _ _ H E) as [-> _]; discriminate.
Qed.
(** What stops the loop before its end. *)
Lemma start_fails linux listener W app cs T made ok k0 w0 its1 it its2 :
  Forall (fun it => it_stops it = []) its1 -> forall x,
  start linux listener W app cs T made ok None k0 w0 (its1 ++ [it]) = x -> (forall y, x <> Ret y) ->
  start linux listener W app cs T made ok None k0 w0 (its1 ++ it :: its2) = x.
Proof.
  intros H x. unfold start. destruct made; [|trivial]. cbn [negb]. set (s := set _ _ _ _ _ _). clearbody s. revert s.
  induction H as [|i its1 _ _ IH]; intros s; cbn [Datatypes.app loop]; (destruct (sv_stop W s); [intros E N; exfalso; exact (N _ (eq_sym E))|]).
  - destruct (iterate _ _ _ _ _ _ it s) as [s'| | |]; cbn [obind]; try trivial. cbn [loop].
    intros E N. exfalso. destruct (sv_stop W s'); exact (N _ (eq_sym E)).
  - destruct (iterate _ _ _ _ _ _ i s) as [s'| | |]; cbn [obind]; try trivial. apply IH.
Qed.
(** A stop does not change what the iteration does otherwise. *)
Lemma start_same linux listener W app cs T made ok k0 w0 its it stops :
  forall y, start linux listener W app cs T made ok None k0 w0 (its ++ [Iteration (it_clock it) (it_wait it) []]) = Ret y ->
  exists z, start linux listener W app cs T made ok None k0 w0 (its ++ [Iteration (it_clock it) (it_wait it) stops]) = Ret z.
Proof.
  intros y. unfold start. destruct made; [|discriminate]. cbn [negb]. set (s := set _ _ _ _ _ _). clearbody s. revert s.
  induction its as [|i its IH]; intros s; cbn [Datatypes.app loop]; (destruct (sv_stop W s); [intros _; eexists; reflexivity|]).
  - unfold iterate. cbn [it_clock it_wait it_stops]. destruct (poller_poll _ _ _ _) as [ev p].
    match goal with |- obind (obind ?x _) _ = _ -> _ => destruct x as [s'| | |] end; try discriminate. intros _. cbn [obind].
    destruct (sv_stop W (fold_left _ stops _)); eexists; reflexivity.
  - destruct (iterate _ _ _ _ _ _ i s) as [s'| | |]; try discriminate. cbn [obind]. apply IH.
Qed.
Theorem C85_client_gone : forall linux listener page cs T library made ok name a k0 w0 its,
  Forall (fun x => Forall harmless (snd x)) its ->
  main linux listener page cs T library made ok name a k0 w0 its <> Exits 0.
Proof.
  intros linux listener page cs T library made ok name a k0 w0 its H. apply not_stopped. apply Forall_map.
  eapply Forall_impl; [|exact H]. intros x Hx. cbn [with_signals it_stops]. now apply harmless_all.
Qed.
Print Assumptions C85_client_gone.
Theorem C85_ends : forall linux listener page cs T library made ok name a k0 w0 its1 it sigs sig its2,
  Forall (fun x => Forall harmless (snd x)) its1 -> In sig sigs -> sig = SigInt \/ sig = SigTerm ->
  main linux listener page cs T library made ok name a k0 w0 (its1 ++ (it, sigs) :: its2) =
    main linux listener page cs T library made ok name a k0 w0 (its1 ++ [(it, sigs)]) /\
  main linux listener page cs T library made ok name a k0 w0 (its1 ++ [(it, sigs)]) <> Running /\
  (main linux listener page cs T library made ok name a k0 w0 (its1 ++ [(it, [])]) = Running ->
   main linux listener page cs T library made ok name a k0 w0 (its1 ++ [(it, sigs)]) = Exits 0).
Proof.
  intros linux listener page cs T library made ok name a k0 w0 its1 it sigs sig its2 H Hi He. unfold main.
  destruct (log_level_enum name); try (repeat split; discriminate).
  destruct (new_server _ _ _) as [u| | |]; cbn [obind]; try (repeat split; discriminate).
  rewrite !map_app. cbn [map]. set (i1 := map (with_signals linux) its1). set (i2 := map (with_signals linux) its2).
  assert (N1 : Forall (fun it => it_stops it = []) i1).
  { apply Forall_map. eapply Forall_impl; [|exact H]. intros x Hx. cbn [with_signals it_stops]. now apply harmless_all. }
  set (i := with_signals linux (it, sigs)). assert (N2 : it_stops i <> []).
  { cbn [i with_signals it_stops snd]. intros E. assert (K : signal_stops linux sig = []).
    { destruct (signal_stops linux sig) as [|r l] eqn:Es; [reflexivity|]. exfalso. assert (Q : In r (flat_map (signal_stops linux) sigs)); [|now rewrite E in Q].
      apply in_flat_map. exists sig. split; [exact Hi|]. rewrite Es. now left. }
    destruct He as [->| ->]; discriminate K. }
  assert (L : forall r, start linux listener world (main_app page a) cs T made ok None k0 w0 (i1 ++ [i]) = r -> (forall y, r <> Ret y) -> forall e,
    match start linux listener world (main_app page a) cs T made ok None k0 w0 (i1 ++ [with_signals linux (it, [])]) with
    | Ret (true, _) => Exits 0 | Ret (false, _) => Running | Throw => Exits 1 | Undef | Fuel => Undefined end = Running -> e = Exits 0).
  { intros r Er Nr e K. destruct (start _ _ _ _ _ _ _ _ _ _ _ (i1 ++ [with_signals linux (it, [])])) as [y| | |] eqn:Ey; try discriminate K.
    destruct (start_same _ _ _ _ _ _ _ _ _ _ _ it (flat_map (signal_stops linux) sigs) _ Ey) as (z & Ez). exfalso. apply (Nr z). rewrite <- Er. exact Ez. }
  destruct (start linux listener world (main_app page a) cs T made ok None k0 w0 (i1 ++ [i])) as [[b s]| | |] eqn:E.
  - destruct (C51_stops _ _ _ _ _ _ _ _ _ _ _ _ i2 _ _ N1 N2 E) as (-> & _ & E'). rewrite E'. repeat split; discriminate.
  - rewrite (start_fails _ _ _ _ _ _ _ _ _ _ _ _ i2 N1 _ E) by discriminate. split; [reflexivity|]. split; [discriminate|]. exact (L _ eq_refl ltac:(discriminate) _).
  - rewrite (start_fails _ _ _ _ _ _ _ _ _ _ _ _ i2 N1 _ E) by discriminate. split; [reflexivity|]. split; [discriminate|]. exact (L _ eq_refl ltac:(discriminate) _).
  - rewrite (start_fails _ _ _ _ _ _ _ _ _ _ _ _ i2 N1 _ E) by discriminate. split; [reflexivity|]. split; [discriminate|]. exact (L _ eq_refl ltac:(discriminate) _).
Qed.
Print Assumptions C85_ends.
(** On Linux, with pipes for standard output and error, SIGPIPE never ends the program,
    even if nobody reads them any more. *)
Theorem C85_pipe_refuted : forall listener page cs T library made ok name a k0 w0 its,
  Forall (fun x => Forall (fun s => s = SigPipe (Pipe true) (Pipe true)) (snd x)) its ->
  main true listener page cs T library made ok name a k0 w0 its <> Exits 0.
Proof.
  intros listener page cs T library made ok name a k0 w0 its H. apply not_stopped. apply Forall_map.
  eapply Forall_impl; [|exact H]. intros [it sigs] Hx. cbn [with_signals it_stops snd] in *. induction Hx as [|s l -> _ IH]; [reflexivity|exact IH].
Qed.
Print Assumptions C85_pipe_refuted.
Definition idle : iteration := Iteration (fun _ => 0) WaitNothing [].
Definition running (sigs : list (list signal)) : ending :=
  main true 3 plain_page true the_tree true true true (str "info") some_args k_std a_world (map (pair idle) sigs).
Example C85_case : harmless (SigPipe (Pipe false) OtherStream) /\
  running [[]; [SigPipe (Pipe false) OtherStream]; [SigPipe (Pipe true) (Pipe true)]] = Running /\
  running [[]; [SigPipe (Pipe false) OtherStream]; [SigTerm; SigPipe (Pipe true) (Pipe true)]; []] = Exits 0.
Proof.
  split; [split; discriminate|]. split; vm_compute; reflexivity.
Qed.
