(** What the console says at the beginning and at the end (C119). *)
From Verif Require Import Base BaseLemmas AccessLog Messages FileSys Files SpecFiles PropFiles Router App PropApp ProcCtrl StartMessages SpecStart
  Main Console.

Lemma exists_cases o p : fs_exists o p = Ret true \/ fs_exists o p = Ret false \/ fs_exists o p = Throw.
Proof. unfold fs_exists, fs_status. destruct (resolve o p) as [l|[]]; cbn [obind]; auto. destruct (os_fs o l); auto. Qed.

(** ** C119.  The console says what the program is set up to do, and why it does not do it.

    The reason [server_reason] is given exactly when the server cannot be made. *)
Theorem C119_reason_given : forall what o l a,
  (server_reason what o l (to_server_config a) = None <-> new_server o (works l) (to_server_config a) = Ret tt) /\
  ((exists t, server_reason what o l (to_server_config a) = Some t) <-> new_server o (works l) (to_server_config a) = Throw).
Proof.
  intros what o l a. unfold server_reason, new_server, validate.
  assert (E : c_cleartext (to_server_config a) = a_cleartext a /\ c_key_path (to_server_config a) = Some (a_key_path a)).
  { unfold to_server_config. destruct (a_cert_path a), (a_key_path a); split; reflexivity. }
  destruct E as [-> ->]. destruct (a_cleartext a); cbn [obind].
  { split; [easy|]. split; [intros [t [=]]|discriminate]. }
  destruct (c_cert_path (to_server_config a)) as [cert|]; cbn [obind]; [|split; [easy|]; split; eauto].
  unfold context_reason, tls_context.
  destruct (exists_cases o cert) as [-> |[-> | ->]]; cbn [obind negb]; [|split; [easy|]; split; eauto..].
  destruct (exists_cases o (a_key_path a)) as [-> |[-> | ->]]; cbn [obind negb]; [|split; [easy|]; split; eauto..].
  destruct l; cbn [works]; (split; [easy|]); split; eauto; try discriminate. intros [t [=]].
Qed.
Print Assumptions C119_reason_given.

Lemma no_file o : fs_exists o [] = Ret false.
Proof. reflexivity. Qed.

(** The reason is the true one, and the first in the order of [refused].

    Missing: when a key is given. *)
Theorem C119_reason_partial : forall what o l a t, a_cleartext a = true \/ a_cert_path a = [] \/ a_key_path a <> [] ->
  server_reason what o l (to_server_config a) = Some t <-> refused what o l a t.
Proof.
  intros what o l a t H. unfold server_reason.
  assert (E : c_cleartext (to_server_config a) = a_cleartext a /\ c_key_path (to_server_config a) = Some (a_key_path a) /\
    c_cert_path (to_server_config a) = match a_cert_path a with [] => None | p => Some p end).
  { unfold to_server_config. destruct (a_cert_path a), (a_key_path a); repeat split; reflexivity. }
  destruct E as (-> & -> & ->). destruct (a_cleartext a) eqn:Ec.
  { split; [discriminate|]. intros R. destruct R; congruence. }
  destruct (a_cert_path a) as [|c0 cert] eqn:Ep.
  { split; [intros [= <-]; now apply no_certificate|]. intros R. destruct R; congruence. }
  assert (Hk : a_key_path a <> []) by (destruct H as [H|[H|H]]; [discriminate|discriminate|exact H]). clear H. rewrite <- Ep.
  assert (Hp : a_cert_path a <> []) by now rewrite Ep.
  unfold context_reason. destruct (exists_cases o (a_cert_path a)) as [E1|[E1|E1]]; rewrite E1.
  - destruct (exists_cases o (a_key_path a)) as [E2|[E2|E2]]; rewrite E2.
    + split.
      * intros E. apply library_says; auto. destruct l; try discriminate E; injection E as <-; cbn; auto 6.
      * intros R. destruct R; try congruence. cbn [In] in *.
        repeat match goal with H : _ \/ _ |- _ => destruct H as [H|H] end; try contradiction; match goal with H : (_, _) = _ |- _ => injection H as <- <- end; reflexivity.
    + split; [intros [= <-]; now apply missing_key|]. intros R. destruct R; congruence.
    + split; [intros [= <-]; now apply unknown_key|]. intros R. destruct R; congruence.
  - split; [intros [= <-]; now apply missing_certificate|]. intros R. destruct R; congruence.
  - split; [intros [= <-]; now apply unknown_certificate|]. intros R. destruct R; congruence.
Qed.
Print Assumptions C119_reason_partial.
(** A server that is made with the paths that are given, and no others, always has the true
    reason. *)
Definition given (path : bytes) : option bytes := match path with [] => None | p => Some p end.
Theorem C119_reason_given_paths : forall what o l a t,
  server_reason what o l (Config (given (a_cert_path a)) (given (a_key_path a)) (a_cleartext a)) = Some t <-> refused what o l a t.
Proof.
  intros what o l a t. destruct (a_key_path a) as [|k0 key] eqn:Ek.
  - unfold server_reason. cbn [c_cleartext c_cert_path c_key_path given]. destruct (a_cleartext a) eqn:Ec; [split; [discriminate|intros R; destruct R; congruence]|].
    destruct (a_cert_path a) as [|c0 cert] eqn:Ep; cbn [given].
    + split; [intros [= <-]; now apply no_certificate|intros R; destruct R; congruence].
    + split; [intros [= <-]; apply no_key; congruence|intros R; destruct R; congruence].
  - rewrite <- C119_reason_partial by (right; right; congruence). rewrite <- Ek.
    replace (Config (given (a_cert_path a)) (given (a_key_path a)) (a_cleartext a)) with (to_server_config a); [reflexivity|].
    unfold to_server_config. rewrite Ek. destruct (a_cert_path a); reflexivity.
Qed.
Print Assumptions C119_reason_given_paths.
Example C119_reason_given_paths_case :
  map (server_reason (fun p => p) an_os BadKey) [Config (Some (str "/etc/passwd")) None false; Config None None false; Config (Some (str "/etc/passwd")) (Some (str "/srv/www/key")) false; Config None None true] =
  [Some (str "TLS private key path not set."); Some (str "TLS certificate path not set."); Some (str "failed to load private key file"); None].
Proof. vm_compute. reflexivity. Qed.
(** Without a key the program says that a file was not found. *)
Theorem C119_reason_refuted : forall what o l a, a_cleartext a = false -> a_cert_path a <> [] -> a_key_path a = [] ->
  fs_exists o (a_cert_path a) = Ret true ->
  refused what o l a (str "TLS private key path not set.") /\
  server_reason what o l (to_server_config a) = Some (str "private key file not found").
Proof.
  intros what o l a Hc Hp Hk He. split; [now apply no_key|]. unfold server_reason, to_server_config. rewrite Hc, Hk.
  destruct (a_cert_path a) as [|c cert]; [contradiction|]. cbn [c_cleartext c_cert_path c_key_path]. unfold context_reason. rewrite He, no_file. reflexivity.
Qed.
Print Assumptions C119_reason_refuted.

Lemma all_through v ms : severity v <= 2 -> Forall (fun m => 2 <= severity (m_level m)) ms -> let_through v ms = ms.
Proof.
  intros Hv H. unfold let_through. induction H as [|m ms Hm H IH]; [reflexivity|]. cbn [filter]. rewrite IH.
  now replace (severity v <=? severity (m_level m)) with true by (symmetry; apply Z.leb_le; lia).
Qed.
Lemma through_app v ms ms' : let_through v (ms ++ ms') = let_through v ms ++ let_through v ms'.
Proof. apply filter_app. Qed.
Ltac dis := match goal with H : Msg _ _ = Msg _ _ |- _ => exfalso; first [discriminate H|injection H as H; discriminate H] end.
Ltac split_in := repeat match goal with
  | H : In _ (_ ++ _) |- _ => apply in_app_or in H
  | H : _ \/ _ |- _ => destruct H as [H|H]
  | H : In _ [] |- _ => destruct H
  | H : In _ (_ :: _) |- _ => destruct H as [H|H]
  | H : In _ (if ?b then _ else _) |- _ => destruct b eqn:?
  end.

(** The whole console output of the program that is made, with any messages [during] its
    work: what is switched on is announced before; the end, when it comes, is told after. *)
Theorem C119_output : forall what telemetry v version linux set inherited log_path f o l a during e,
  severity v <= 2 -> server_reason what o l (to_server_config a) = None ->
  exists before, main_messages what telemetry v version linux set inherited log_path f o l a during e =
    before ++ let_through v during ++
    match e with
    | StillRuns => []
    | Returns => [Msg LInfo (str "exiting")]
    | Throws t => [Msg LCritical (str "fatal error: " ++ t)]
    end /\
    announced a before /\
    (forall t, ~ In (Msg LCritical t) before) /\
    (telemetry = false <-> In (Msg LInfo (str "OpenTelemetry disabled.")) before) /\
    (log_path <> [] /\ f = LogOpened -> In (Msg LInfo (str "writing access logs to " ++ log_path)) before) /\
    (forall t, log_path <> [] /\ f = LogFailed t -> In (Msg LErr (str "failed to setup access logs: " ++ t)) before) /\
    (In (Msg LDebug (str "PR_SET_NO_NEW_PRIVS enabled")) before <-> linux = true /\ set = Accepted /\ severity v <= 1) /\
    (forall t, In (Msg LWarn (str "failed to set PR_SET_NO_NEW_PRIVS: " ++ t)) before <-> linux = true /\ set = Refused t).
Proof.
  intros what telemetry v version linux set inherited log_path f o l a during e Hv Hr.
  set (first := if telemetry then [] else [info (str "OpenTelemetry disabled.")]).
  set (ion := info (str "ion " ++ version ++ str " started " ++ [226; 154; 161; 239; 184; 143])).
  set (privs := let_through v (snd (enable_no_new_privs_on_linux linux set inherited))).
  set (logs := access_log_messages log_path f).
  exists (first ++ (ion :: privs) ++ logs ++ route_messages a).
  assert (Hf : Forall (fun m => 2 <= severity (m_level m)) first) by (subst first; destruct telemetry; repeat constructor; cbn; lia).
  assert (Hl : Forall (fun m => 2 <= severity (m_level m)) logs).
  { subst logs. destruct log_path; [constructor|]. destruct f; repeat constructor; cbn; lia. }
  assert (Ha : Forall (fun m => 2 <= severity (m_level m)) (route_messages a)).
  { unfold route_messages. rewrite !Forall_app. split; [destruct (a_under_test a); repeat constructor; cbn; lia|].
    split; [destruct (a_status_page a); repeat constructor; cbn; lia|]. destruct (a_static_map a) as [|? [|? [|]]]; repeat constructor; cbn; lia. }
  assert (Hp : forall m, In m privs -> exists t, m = Msg LWarn t \/ m = Msg LDebug t).
  { intros m H. subst privs. apply filter_In in H as [H _]. destruct linux; [destruct set|]; cbn in H; try contradiction; destruct H as [<-|[]]; eauto. }
  assert (Hlg : forall m, In m logs -> (exists t, m = Msg LErr t) \/ exists t, m = Msg LInfo (str "writing access logs to " ++ t)).
  { intros m H. subst logs. unfold access_log_messages in H. destruct log_path; [destruct H|]. destruct f; destruct H as [<-|[]]; [right|left]; eexists; reflexivity. }
  split.
  { unfold main_messages, try_messages. rewrite Hr. fold first ion logs. rewrite all_through by (auto; cbn; lia).
    set (tail := match e with StillRuns => [] | Returns => [info (str "exiting")] | Throws t => [fatal t] end).
    assert (Ht : let_through v tail = tail) by (apply all_through; [exact Hv|]; subst tail; destruct e; repeat constructor; cbn; lia).
    rewrite !through_app. rewrite (all_through v logs), (all_through v (route_messages a)), Ht by auto.
    rewrite (all_through v [ion]) by (first [exact Hv|repeat constructor; cbn; lia]). rewrite <- ?app_assoc. cbn [Datatypes.app]. rewrite <- ?app_assoc. subst tail. reflexivity. }
  clear Hr Hf Hl Ha.
  assert (Hs : forall m, In m (match a_static_map a with [u; r] => [info (str "serving static files at '" ++ u ++ str "' -> '" ++ r ++ str "'")] | _ => [] end) ->
    exists u r, a_static_map a = [u; r] /\ m = Msg LInfo (str "serving static files at '" ++ u ++ str "' -> '" ++ r ++ str "'")).
  { intros m H. destruct (a_static_map a) as [|u [|r [|]]]; try (destruct H; fail). destruct H as [<-|[]]. eauto. }
  assert (K : forall t, In (Msg LInfo t) (first ++ (ion :: privs) ++ logs ++ route_messages a) ->
     (telemetry = false /\ t = str "OpenTelemetry disabled.") \/ (exists x, t = str "ion " ++ x) \/ (exists x, t = str "writing access logs to " ++ x) \/
     (a_under_test a = true /\ t = str "running under test mode") \/ (a_status_page a = true /\ t = str "status page enabled: /_ion/status") \/
     (exists u r, a_static_map a = [u; r] /\ t = str "serving static files at '" ++ u ++ str "' -> '" ++ r ++ str "'")).
  { intros t H. apply in_app_or in H as [H|H].
    { subst first. destruct telemetry; [destruct H|]. destruct H as [H|[]]. injection H as <-. auto. }
    apply in_app_or in H as [[H|H]|H].
    - injection H as <-. right. left. eexists. reflexivity.
    - apply Hp in H as [x [[=]|[=]]].
    - apply in_app_or in H as [H|H].
      + apply Hlg in H as [[x [=]]|[x H]]. right. right. left. exists x. exact (f_equal m_text H).
      + unfold route_messages in H. apply in_app_or in H as [H|H]; [destruct (a_under_test a); [|destruct H]; destruct H as [H|[]]; apply (f_equal m_text) in H; cbn in H; subst t; auto 6|].
        apply in_app_or in H as [H|H]; [destruct (a_status_page a); [|destruct H]; destruct H as [H|[]]; apply (f_equal m_text) in H; cbn in H; subst t; auto 8|].
        apply Hs in H as (u & r & E & H). do 5 right. exists u, r. split; [exact E|exact (f_equal m_text H)]. }
  split.
  { split; [|split; [|split]].
    - split; intros H.
      + rewrite !in_app_iff. do 3 right. unfold route_messages. rewrite H. now left.
      + apply K in H as [[_ H]|[[x H]|[[x H]|[[H _]|[[_ H]|(u & r & _ & H)]]]]]; auto; discriminate H.
    - split; intros H.
      + rewrite !in_app_iff. do 3 right. unfold route_messages. rewrite H. rewrite !in_app_iff. right. left. now left.
      + apply K in H as [[_ H]|[[x H]|[[x H]|[[_ H]|[[H _]|(u & r & _ & H)]]]]]; auto; discriminate H.
    - intros u r H. rewrite !in_app_iff. do 3 right. unfold route_messages. rewrite H. rewrite !in_app_iff. do 2 right. now left.
    - intros t H. apply K in H as [[_ H]|[[x H]|[[x H]|[[_ H]|[[_ H]|(u & r & E & H)]]]]]; try discriminate H. exists u, r. split; [exact E|].
      injection H as H. exact H. }
  assert (Kp : forall m, ~ (exists t, m = Msg LInfo t) -> ~ (exists t, m = Msg LErr t) -> In m (first ++ (ion :: privs) ++ logs ++ route_messages a) -> In m privs).
  { intros m H1 H2 H. apply in_app_or in H as [H|H].
    { subst first. destruct telemetry; [destruct H|]. destruct H as [<-|[]]. elim H1. eexists. reflexivity. }
    apply in_app_or in H as [[<-|H]|H]; [elim H1; eexists; reflexivity|exact H|]. apply in_app_or in H as [H|H].
    { apply Hlg in H as [[x ->]|[x ->]]; [elim H2|elim H1]; eexists; reflexivity. }
    elim H1. unfold route_messages in H. apply in_app_or in H as [H|H]; [destruct (a_under_test a); [|destruct H]; destruct H as [<-|[]]; eexists; reflexivity|].
    apply in_app_or in H as [H|H]; [destruct (a_status_page a); [|destruct H]; destruct H as [<-|[]]; eexists; reflexivity|].
    apply Hs in H as (u & r & _ & ->). eexists. reflexivity. }
  split; [|split; [|split; [|split; [|split]]]].
  - intros t H. apply in_app_or in H as [H|H]; [subst first; destruct telemetry; [destruct H|]; destruct H as [H|[]]; discriminate H|].
    apply in_app_or in H as [[H|H]|H]; [discriminate H|apply Hp in H as [x [[=]|[=]]]|]. apply in_app_or in H as [H|H]; [apply Hlg in H as [[x [=]]|[x [=]]]|].
    unfold route_messages in H. apply in_app_or in H as [H|H]; [destruct (a_under_test a); [|destruct H]; destruct H as [H|[]]; discriminate H|].
    apply in_app_or in H as [H|H]; [destruct (a_status_page a); [|destruct H]; destruct H as [H|[]]; discriminate H|]. apply Hs in H as (u & r & _ & [=]).
  - split; intros H; [subst first; rewrite H; now left|].
    apply K in H as [[H _]|[[x H]|[[x H]|[[_ H]|[[_ H]|(u & r & _ & H)]]]]]; auto; discriminate H.
  - intros [H ->]. subst logs. rewrite !in_app_iff. do 2 right. left. destruct log_path; [contradiction|]. now left.
  - intros t [H ->]. subst logs. rewrite !in_app_iff. do 2 right. left. destruct log_path; [contradiction|]. now left.
  - split.
    + intros H. apply Kp in H; [|intros [t [=]]|intros [t [=]]]. subst privs. apply filter_In in H as [H E]. apply Z.leb_le in E.
      destruct linux; [destruct set|]; cbn in H; try contradiction; destruct H as [H|[]]; [|discriminate H]. auto.
    + intros (-> & -> & E). rewrite !in_app_iff. right. left. right. subst privs. apply filter_In. split; [now left|]. now apply Z.leb_le.
  - intros t. split.
    + intros H. apply Kp in H; [|intros [x [=]]|intros [x [=]]]. subst privs. apply filter_In in H as [H _].
      destruct linux; [destruct set|]; cbn [enable_no_new_privs_on_linux enable_no_new_privs snd In] in H; try contradiction; destruct H as [H|[]]; [discriminate H|].
      apply (f_equal m_text) in H. cbn [m_text] in H. apply app_inv_head in H. now subst.
    + intros (-> & ->). rewrite !in_app_iff. right. left. right. subst privs. apply filter_In. split; [now left|]. apply Z.leb_le. cbn. lia.
Qed.
Print Assumptions C119_output.

(** If the server cannot be made, that is the last line, and nothing was announced. *)
Theorem C119_no_server : forall what telemetry v version linux set inherited log_path f o l a during e t,
  severity v <= 5 -> server_reason what o l (to_server_config a) = Some t ->
  exists before, main_messages what telemetry v version linux set inherited log_path f o l a during e =
    before ++ [Msg LCritical (str "fatal error: " ++ t)] /\ (forall t', ~ In (Msg LCritical t') before) /\
    announced (Args true [] [] [] [] false false) before.
Proof.
  intros what telemetry v version linux set inherited log_path f o l a during e t Hv Hr. eexists. split.
  - unfold main_messages, try_messages. rewrite Hr. rewrite !app_assoc. rewrite (through_app v _ [fatal t]), app_assoc. f_equal.
    unfold let_through. cbn [filter fatal m_level severity]. now replace (severity v <=? 5) with true by (symmetry; now apply Z.leb_le).
  - match goal with |- context [announced _ ?b] => set (before := b) end.
    assert (K : forall m, In m before -> m = Msg LInfo (str "OpenTelemetry disabled.") \/ (exists x, m = Msg LInfo (str "ion " ++ x)) \/
      (exists x, m = Msg LInfo (str "writing access logs to " ++ x)) \/ (exists x, m = Msg LWarn x) \/ (exists x, m = Msg LErr x) \/ (exists x, m = Msg LDebug x)).
    { intros m H. subst before. apply in_app_or in H as [H|H]; apply filter_In in H as [H _].
      - destruct telemetry; [destruct H|]. destruct H as [<-|[]]. now left.
      - apply in_app_or in H as [H|H].
        + apply in_app_or in H as [[<-|[]]|H]; [right; left; eexists; reflexivity|]. destruct linux; [destruct set|]; cbn in H; try contradiction; destruct H as [<-|[]]; eauto 10.
        + unfold access_log_messages in H. destruct log_path; [destruct H|]. destruct f; destruct H as [<-|[]]; [right; right; left; eexists; reflexivity|eauto 9]. }
    clearbody before. split; [intros t' H; apply K in H as [H|[[x H]|[[x H]|[[x H]|[[x H]|[x H]]]]]]; discriminate H|].
    split; [|split; [|split]]; cbn [a_under_test a_status_page a_static_map]; try (split; [discriminate|]); try (intros ? ? [=]; fail);
      [intros H|intros H|intros t' H]; exfalso; apply K in H as [H|[[x H]|[[x H]|[[x H]|[[x H]|[x H]]]]]]; discriminate H.
Qed.
Print Assumptions C119_no_server.

(** With --log-level off the program is silent.

    Missing: if telemetry is not disabled. *)
Theorem C119_off_partial : forall what version linux set inherited log_path f o l a during e,
  (forall m, In m during -> severity (m_level m) <= 5) ->
  main_messages what true LOff version linux set inherited log_path f o l a during e = [].
Proof.
  intros what version linux set inherited log_path f o l a during e Hd. unfold main_messages. cbn [Datatypes.app let_through filter].
  unfold let_through. set (ms := try_messages _ _ _ _ _ _ _ _ _ _ _ _).
  assert (H : forall m, In m ms -> severity (m_level m) <= 5).
  { intros m H. subst ms. destruct m as [[] t]; cbn; try lia. exfalso. unfold try_messages in H.
    apply in_app_or in H as [[H|[]]|H]; [discriminate H|]. apply in_app_or in H as [H|H].
    { destruct linux; [destruct set|]; cbn in H; try contradiction; destruct H as [H|[]]; discriminate H. }
    apply in_app_or in H as [H|H].
    { unfold access_log_messages in H. destruct log_path; [destruct H|]. destruct f; destruct H as [H|[]]; discriminate H. }
    destruct (server_reason what o l (to_server_config a)); [destruct H as [H|[]]; discriminate H|].
    apply in_app_or in H as [H|H].
    { unfold route_messages in H. split_in; try discriminate H. destruct (a_static_map a) as [|u [|r [|]]]; try (destruct H; fail). destruct H as [H|[]]. discriminate H. }
    apply in_app_or in H as [H|H]; [apply Hd in H; cbn in H; lia|]. destruct e; split_in; discriminate H. }
  clearbody ms. induction ms as [|m ms IH]; [reflexivity|]. cbn [filter].
  replace (severity LOff <=? severity (m_level m)) with false by (symmetry; apply Z.leb_gt; specialize (H m (or_introl eq_refl)); cbn; lia).
  apply IH. intros m' H'. apply H. now right.
Qed.
Print Assumptions C119_off_partial.
(** Otherwise it says so before it looks at the level. *)
Theorem C119_off_refuted : forall what version linux set inherited log_path f o l a during e,
  exists ms, main_messages what false LOff version linux set inherited log_path f o l a during e = Msg LInfo (str "OpenTelemetry disabled.") :: ms.
Proof. intros. eexists. reflexivity. Qed.
Print Assumptions C119_off_refuted.

(** A higher level leaves out the lines below it, and changes nothing else. *)
Theorem C119_levels : forall what (telemetry : bool) v v' version linux set inherited log_path f o l a during e, severity v <= severity v' ->
  exists first rest : list message,
    first = (if telemetry then [] else [Msg LInfo (str "OpenTelemetry disabled.")]) /\
    main_messages what telemetry v version linux set inherited log_path f o l a during e = first ++ rest /\
    main_messages what telemetry v' version linux set inherited log_path f o l a during e =
      first ++ filter (fun m => severity v' <=? severity (m_level m)) rest.
Proof.
  intros what telemetry v v' version linux set inherited log_path f o l a during e Hv. unfold main_messages.
  set (ms := try_messages _ _ _ _ _ _ _ _ _ _ _ _). clearbody ms. eexists. exists (let_through v ms). split; [reflexivity|].
  split; [destruct telemetry; reflexivity|]. replace (let_through LInfo _) with (if telemetry then [] else [Msg LInfo (str "OpenTelemetry disabled.")]) by (destruct telemetry; reflexivity).
  f_equal. unfold let_through. induction ms as [|m ms IH]; [reflexivity|]. cbn [filter].
  destruct (severity v <=? severity (m_level m)) eqn:E1; cbn [filter]; destruct (severity v' <=? severity (m_level m)) eqn:E2; rewrite IH; auto.
  apply Z.leb_gt in E1. apply Z.leb_le in E2. lia.
Qed.
Print Assumptions C119_levels.
Example C119_levels_case :
  map (fun v => length (main_messages (fun p => p) false v (str "1.0") true Accepted false (str "/var/log/ion") (LogFailed (str "Failed opening file")) an_os Works some_args
      [info (str "listening on port 8443")] Returns)) [LTrace; LDebug; LInfo; LWarn; LErr; LCritical; LOff] = [8; 8; 7; 2; 2; 1; 1]%nat.
Proof. vm_compute. reflexivity. Qed.

(** The levels are those of Console.v, so that C99 is about these messages. *)
Definition say_levels (l : list step) : list level := flat_map (fun s => match s with Say v => [v] | _ => [] end) l.
Theorem C119_console : forall what version linux set inherited log_path f o l a during v,
  map m_level (try_messages what version linux set inherited log_path f o l a during StillRuns) =
    say_levels (opening linux false (match set with Accepted => true | _ => false end) (match f with LogOpened => true | _ => false end) log_path v) ++
    match server_reason what o l (to_server_config a) with Some _ => [LCritical] | None => say_levels (routes a) ++ map m_level during end.
Proof.
  intros what version linux set inherited log_path f o l a during v. unfold try_messages, opening.
  destruct linux; [destruct set|]; destruct log_path; destruct f; cbn [say_levels flat_map Datatypes.app enable_no_new_privs_on_linux enable_no_new_privs snd access_log_messages map m_level filter severity Z.leb Z.compare Pos.compare Pos.compare_cont];
    repeat f_equal; destruct (server_reason what o l (to_server_config a)); try reflexivity; rewrite !map_app, app_nil_r; f_equal;
    unfold route_messages, routes, say_levels; destruct (a_under_test a), (a_status_page a); destruct (a_static_map a) as [|u [|r [|]]]; reflexivity.
Qed.
Print Assumptions C119_console.

Example C119_case :
  server_reason (fun p => p) an_os Works (to_server_config some_args) = None /\
  main_messages (fun p => p) true LInfo (str "1.0") true Accepted false (str "/var/log/ion") (LogFailed (str "Failed opening file")) an_os Works some_args
      [info (str "listening on port 8443")] Returns =
    [info (str "ion 1.0 started " ++ [226; 154; 161; 239; 184; 143]); Messages.err (str "failed to setup access logs: Failed opening file");
     info (str "status page enabled: /_ion/status"); info (str "serving static files at '/static' -> '/srv/www'");
     info (str "listening on port 8443"); info (str "exiting")] /\
  nth 1 (main_messages (fun p => p) true LDebug (str "1.0") true Accepted false [] LogOpened an_os Works some_args [] StillRuns) (info []) =
    Msg LDebug (str "PR_SET_NO_NEW_PRIVS enabled") /\
  (let a := Args false (str "/etc/passwd") [] [] [] false false in
   a_cleartext a = false /\ a_cert_path a <> [] /\ a_key_path a = [] /\ fs_exists an_os (a_cert_path a) = Ret true /\
   main_messages (fun p => p) false LErr (str "1.0") false Accepted false [] LogOpened an_os Works a [] StillRuns =
     [info (str "OpenTelemetry disabled."); Msg LCritical (str "fatal error: private key file not found")]) /\
  (let a := Args false (str "/etc/passwd") (str "/srv/www/key") [] [] false false in
   a_key_path a <> [] /\ server_reason (fun p => p) an_os NoMatch (to_server_config a) = Some (str "private key does not match certificate")).
Proof. repeat split; discriminate || (vm_compute; reflexivity). Qed.
