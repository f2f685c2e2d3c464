(** Proofs about the program's console and signals (C99). *)
From Verif Require Import Base BaseLemmas Huffman Http Conn FileSys Router App AccessLog Poller Server Main Console.

(** All but whether stop was called. *)
Definition same (p q : proc) : Prop :=
  p_int q = p_int p /\ p_term q = p_term p /\ p_pipe q = p_pipe p /\ p_points q = p_points p /\ p_exists q = p_exists p /\ p_level q = p_level p /\
  (p_stop p <> None -> p_stop q <> None).
Lemma same_refl p : same p p.
Proof. repeat split; auto. Qed.
Lemma same_trans p q r : same p q -> same q r -> same p r.
Proof. intros (A1 & A2 & A3 & A4 & A5 & A6 & A7) (B1 & B2 & B3 & B4 & B5 & B6 & B7). repeat split; try congruence. auto. Qed.
Lemma same_caught k p q : same p q -> caught k q = caught k p.
Proof. intros (A1 & A2 & A3 & _). destruct k; assumption. Qed.

Section Steps.
  Variable linux : bool.
  (** How one signal can end the process. *)
  Definition deadly (p : proc) (s : signal) (f : fate) : Prop :=
    (caught (kind_of s) p = false /\ f = Killed (kind_of s)) \/ (f = Stale /\ p_points p = true /\ p_exists p = false).
  Lemma stops_out l : forall p x, (exists q, x = On q /\ same p q) \/ (x = Over Stale /\ p_points p = true /\ p_exists p = false) ->
    match fold_left (fun x r => go_on x (stop_server r)) l x with
    | On q => same p q
    | Over f => f = Stale /\ p_points p = true /\ p_exists p = false
    end.
  Proof.
    induction l as [|r l IH]; intros p x H; cbn [fold_left].
    - destruct H as [(q & -> & H)|(-> & H)]; auto.
    - apply IH. destruct H as [(q & -> & H)|(-> & H)]; [|right; now split]. cbn [go_on]. unfold stop_server. pose proof H as (A1 & A2 & A3 & A4 & A5 & A6 & A7).
      destruct (p_points q) eqn:Ep; [|left; eauto]. destruct (p_exists q) eqn:Ee; [|right; repeat split; congruence].
      left. eexists. split; [reflexivity|]. repeat split; cbn; try congruence. 
  Qed.
  Lemma arrive_out p s : match arrive linux p s with On q => same p q | Over f => deadly p s f end.
  Proof.
    unfold arrive. destruct (caught (kind_of s) p) eqn:E; [|left; now split].
    pose proof (stops_out (signal_stops linux s) p (On p) (or_introl (ex_intro _ p (conj eq_refl (same_refl p))))) as K.
    destruct (fold_left _ _ _); [exact K|right; exact K].
  Qed.
  Lemma deadly_same p q s f : same p q -> deadly q s f -> deadly p s f.
  Proof. intros H [[K1 K2]|(K1 & K2 & K3)]; [left; rewrite (same_caught _ _ _ H) in K1; now split|right]. destruct H as (_ & _ & _ & A4 & A5 & _). repeat split; congruence. Qed.
  Lemma signals_out l : forall p, match signals linux l p with On q => same p q | Over f => exists s, In s l /\ deadly p s f end.
  Proof.
    assert (G : forall l p x, match x with On q => same p q | Over f => exists s, In s l /\ deadly p s f end -> forall l', 
      match fold_left (fun x s => go_on x (fun p => arrive linux p s)) l' x with On q => same p q | Over f => exists s, In s (l ++ l') /\ deadly p s f end).
    { intros l0 p x H l'. revert l0 x H. induction l' as [|s l' IH]; intros l0 x H; cbn [fold_left].
      - rewrite app_nil_r. exact H.
      - replace (l0 ++ s :: l') with ((l0 ++ [s]) ++ l') by now rewrite <- app_assoc. apply IH. destruct x as [q|f]; cbn [go_on].
        + pose proof (arrive_out q s) as K. destruct (arrive linux q s) as [r|f]; [exact (same_trans _ _ _ H K)|]. exists s. split; [apply in_or_app; right; now left|]. exact (deadly_same _ _ _ _ H K).
        + destruct H as (s' & H & K). exists s'. split; [apply in_or_app; now left|exact K]. }
    intros p. exact (G [] p (On p) (same_refl p) l).
  Qed.
  (** A stop is remembered. *)
  Lemma arrive_stops p s q : s = SigInt \/ s = SigTerm -> p_points p = true -> arrive linux p s = On q -> p_stop q <> None.
  Proof.
    intros H Hp. unfold arrive. destruct (caught _ p); [|discriminate]. destruct H as [-> | ->]; cbn [signal_stops fold_left go_on]; unfold stop_server; rewrite Hp; destruct (p_exists p); try discriminate; intros [= <-]; discriminate.
  Qed.
  Lemma signals_stop l : forall p q s, In s l -> s = SigInt \/ s = SigTerm -> p_points p = true -> signals linux l p = On q -> p_stop q <> None.
  Proof.
    unfold signals. intros p q s Hi Hs. apply in_split in Hi as (l1 & l2 & ->). rewrite fold_left_app. cbn [fold_left]. intros Hp.
    pose proof (signals_out l1 p) as K. unfold signals in K. destruct (fold_left _ l1 _) as [q1|f].
    - cbn [go_on]. pose proof (arrive_out q1 s) as K2. destruct (arrive linux q1 s) as [q2|f] eqn:E2.
      + intros E. pose proof (signals_out l2 q2) as K3. unfold signals in K3. rewrite E in K3. apply K3. apply (arrive_stops q1 s); auto. destruct K as (_ & _ & _ & K & _). congruence.
      + clear. induction l2 as [|x l2 IH]; [discriminate|exact IH].
    - cbn [go_on]. clear. induction l2 as [|x l2 IH]; [discriminate|exact IH].
  Qed.

  (** What the steps do when nothing happens. *)
  Definition effect (p : proc) (s : step) : proc := match s with Say _ => p | _ => match do_step linux calm s p with On q => q | Over _ => p end end.
  Definition effects (l : list step) (p : proc) : proc := fold_left effect l p.
  Lemma effect_same p q s : same p q -> same (effect p s) (effect q s).
  Proof. intros (A1 & A2 & A3 & A4 & A5 & A6 & A7). destruct s as [|l| | | | |[]|[]]; repeat split; cbn; auto; try congruence. Qed.
  Lemma effects_same l : forall p q, same p q -> same (effects l p) (effects l q).
  Proof. induction l as [|s l IH]; intros p q H; [exact H|]. cbn [effects fold_left]. now apply IH, effect_same. Qed.
  (** How a step, or what goes on before it, can end the process. *)
  Definition undone (p : proc) (m : moment) (s : step) (f : fate) : Prop :=
    (exists g, In g (mo_signals m) /\ deadly p g f) \/
    (exists l, s = Say l /\ severity (p_level p) <= severity l /\ mo_out m = Pipe true /\ deadly p (SigPipe (mo_out m) (mo_err m)) f).
  Lemma steps_out l : forall env p,
    match steps linux env l p with
    | On q => same (effects l p) q
    | Over f => exists l1 s l2, l = l1 ++ s :: l2 /\ undone (effects l1 p) (nth (length l1) env calm) s f
    end.
  Proof.
    induction l as [|s l IH]; intros env p; cbn [steps]; [apply same_refl|].
    set (m := hd calm env). assert (Em : nth 0 env calm = m) by now destruct env.
    pose proof (signals_out (mo_signals m) p) as K. destruct (signals linux (mo_signals m) p) as [q|f]; cbn [go_on].
    2: { exists [], s, l. split; [reflexivity|]. cbn [length effects fold_left]. rewrite Em. left. exact K. }
    assert (D : match do_step linux m s q with On r => same (effect p s) r | Over f => undone p m s f end).
    { destruct s as [lv|lv| | | | |k|k]; try (refine (effect_same p q _ K)). cbn [do_step effect].
      destruct (Z.leb_spec (severity (p_level q)) (severity lv)) as [L|L]; [|exact K]. destruct (mo_out m) as [[]|] eqn:Eo; try exact K.
      pose proof (arrive_out q (SigPipe (Pipe true) (mo_err m))) as A. destruct (arrive linux q _) as [r|f]; [exact (same_trans _ _ _ K A)|].
      right. exists lv. rewrite Eo. split; [reflexivity|]. pose proof K as (_ & _ & _ & _ & _ & K6 & _). rewrite K6 in L. split; [exact L|]. split; [reflexivity|]. exact (deadly_same _ _ _ _ K A). }
    destruct (do_step linux m s q) as [r|f]; cbn [go_on].
    2: { exists [], s, l. split; [reflexivity|]. cbn [length effects fold_left]. rewrite Em. exact D. }
    pose proof (IH (tl env) r) as R. destruct (steps linux (tl env) l r) as [z|f].
    - cbn [effects fold_left]. exact (same_trans _ _ _ (effects_same l _ _ D) R).
    - destruct R as (l1 & s' & l2 & -> & U). exists (s :: l1), s', l2. split; [reflexivity|]. cbn [length effects fold_left].
      replace (nth (S (length l1)) env calm) with (nth (length l1) (tl env) calm) by (destruct env; [destruct (length l1)|]; reflexivity).
      assert (E : same (effects l1 (effect p s)) (effects l1 r)) by now apply effects_same.
      destruct U as [(g & U1 & U2)|(lv & U1 & U2 & U3 & U4)]; [left; exists g; split; [exact U1|exact (deadly_same _ _ _ _ E U2)]|].
      right. exists lv. split; [exact U1|]. destruct E as (E1 & E2 & E3 & E4 & E5 & E6 & E7). split; [rewrite E6 in U2; exact U2|]. split; [exact U3|]. eapply deadly_same; [|exact U4]. repeat split; assumption.
  Qed.
  Lemma steps_app l : forall l' env p, steps linux env (l ++ l') p = go_on (steps linux env l p) (steps linux (skipn (length l) env) l').
  Proof.
    induction l as [|s l IH]; intros l' env p; [reflexivity|]. cbn [Datatypes.app steps length].
    destruct (go_on (signals linux (mo_signals (hd calm env)) p) (do_step linux (hd calm env) s)) as [q|f]; [|reflexivity]. cbn [go_on]. rewrite IH.
    destruct env; [now rewrite skipn_nil|reflexivity].
  Qed.
  Lemma steps_enough l : forall env env' p, length env = length l -> steps linux (env ++ env') l p = steps linux env l p.
  Proof.
    induction l as [|s l IH]; intros [|m env] env' p H; try discriminate; [reflexivity|]. injection H as H. cbn [Datatypes.app steps hd tl].
    destruct (go_on (signals linux (mo_signals m) p) (do_step linux m s)) as [q|f]; [|reflexivity]. cbn [go_on]. now apply IH.
  Qed.
  (** Nothing happens. *)
  Definition uneventful (m : moment) : Prop := mo_signals m = [] /\ mo_out m <> Pipe true.
  Lemma steps_calm l : forall env p, Forall uneventful env -> steps linux env l p = On (effects l p).
  Proof.
    induction l as [|s l IH]; intros env p H; cbn [steps]; [reflexivity|].
    assert (Hm : uneventful (hd calm env)) by (destruct H; [now split|assumption]). destruct Hm as [-> Ho]. cbn [signals fold_left go_on].
    assert (D : do_step linux (hd calm env) s p = On (effect p s)) by (destruct s; try reflexivity; cbn [do_step]; destruct (mo_out (hd calm env)) as [[]|]; try easy; now destruct (_ <=? _)).
    rewrite D. cbn [go_on effects fold_left]. apply IH. destruct H; [constructor|assumption].
  Qed.
End Steps.

(** ** The program *)
Definition talk (s : step) : Prop := match s with Say _ | SetLevel _ => True | _ => False end.
Lemma effects_talk linux l : Forall talk l -> forall p, let q := effects linux l p in
  p_int q = p_int p /\ p_term q = p_term p /\ p_pipe q = p_pipe p /\ p_points q = p_points p /\ p_exists q = p_exists p /\ p_stop q = p_stop p.
Proof.
  induction 1 as [|s l H _ IH]; intros p; [repeat split|]. cbn [effects fold_left]. specialize (IH (effect linux p s)). destruct s; try easy; exact IH.
Qed.
Lemma opening_talk linux otel privs opened log_path l : Forall talk (opening linux otel privs opened log_path l).
Proof. unfold opening. destruct otel, linux, log_path; cbn [app]; repeat constructor. Qed.
Lemma routes_talk a : Forall talk (routes a).
Proof. unfold routes. destruct (a_under_test a), (a_status_page a), (a_static_map a) as [|x [|y []]]; cbn [app]; repeat constructor. Qed.

(** What is true of the process at all times: no signal is caught unless there is a server
    and the pointer points to it. *)
Definition sound (p : proc) : Prop := p_points p = true -> p_exists p = true.
Lemma sound_same p q : same p q -> sound p -> sound q.
Proof. intros (_ & _ & _ & A4 & A5 & _) H K. rewrite A4 in K. rewrite A5. now apply H. Qed.
Lemma deadly_sound p s f : sound p -> deadly p s f -> f = Killed (kind_of s) /\ caught (kind_of s) p = false.
Proof. intros H [[K1 K2]|(_ & K2 & K3)]; [now split|]. rewrite (H K2) in K3. discriminate. Qed.
(** The steps are in order. *)
Definition orderly linux (l : list step) (p : proc) : Prop := forall l1 l2, l = l1 ++ l2 -> sound (effects linux l1 p).
Lemma prefix_talk (l l1 l2 : list step) : Forall talk l -> l = l1 ++ l2 -> Forall talk l1.
Proof. intros H ->. now apply Forall_app in H. Qed.
Lemma orderly_talk linux l p : Forall talk l -> sound p -> orderly linux l p.
Proof. intros H Hp l1 l2 E. destruct (effects_talk linux l1 (prefix_talk _ _ _ H E) p) as (_ & _ & _ & A4 & A5 & _). unfold sound. now rewrite A4, A5. Qed.
Lemma orderly_app linux l l' p : orderly linux l p -> orderly linux l' (effects linux l p) -> orderly linux (l ++ l') p.
Proof.
  intros H H' l1 l2 E. apply app_eq_app in E as (x & [[E1 E2]|[E1 E2]]).
  - eapply H. exact E1.
  - subst l1. unfold effects. rewrite fold_left_app. fold (effects linux l p). eapply H'. exact E2.
Qed.
(** Why orderly steps end the process: by a signal that is not caught, sent by others or
    caused by a message. *)
Definition hit (m : moment) (k : kind) : Prop := (exists s, In s (mo_signals m) /\ kind_of s = k) \/ (k = KPipe /\ mo_out m = Pipe true).
Lemma orderly_over linux env l p f : orderly linux l p -> steps linux env l p = Over f ->
  exists l1 s l2 k, l = l1 ++ s :: l2 /\ f = Killed k /\ caught k (effects linux l1 p) = false /\ hit (nth (length l1) env calm) k.
Proof.
  intros H E. pose proof (steps_out linux l env p) as K. rewrite E in K. destruct K as (l1 & s & l2 & El & U). pose proof (H l1 _ El) as S.
  destruct U as [(g & U1 & U2)|(lv & -> & U1 & U2 & U3)].
  - apply (deadly_sound _ _ _ S) in U2 as [-> U3]. exists l1, s, l2, (kind_of g). repeat split; auto. left. exists g. now split.
  - apply (deadly_sound _ _ _ S) in U3 as [-> U4]. exists l1, (Say lv), l2, KPipe. repeat split; auto. right. now split.
Qed.
Lemma hit_in env n k : hit (nth n env calm) k -> exists m, In m env /\ hit m k.
Proof.
  intros H. destruct (nth_in_or_default n env calm) as [K|K]; [eauto|]. rewrite K in H. destruct H as [(s & [] & _)|[_ H]]; discriminate.
Qed.
Lemma orderly_killed linux env l p f : orderly linux l p -> steps linux env l p = Over f -> exists k m, f = Killed k /\ In m env /\ hit m k.
Proof. intros H E. destruct (orderly_over _ _ _ _ _ H E) as (l1 & s & l2 & k & _ & -> & _ & K). apply hit_in in K as (m & K1 & K2). eauto. Qed.
Definition all_caught (p : proc) : Prop := p_int p = true /\ p_term p = true /\ p_pipe p = true /\ p_points p = true /\ p_exists p = true.
Lemma all_caught_same p q : same p q -> all_caught p -> all_caught q.
Proof. intros (A1 & A2 & A3 & A4 & A5 & _) (B1 & B2 & B3 & B4 & B5). repeat split; congruence. Qed.
Lemma all_caught_sound p : all_caught p -> sound p.
Proof. intros (_ & _ & _ & _ & H) _. exact H. Qed.
Lemma all_caught_kind k p : all_caught p -> caught k p = true.
Proof. intros (A1 & A2 & A3 & _). now destruct k. Qed.
Lemma all_caught_talk linux l p : Forall talk l -> all_caught p -> all_caught (effects linux l p).
Proof. intros H (B1 & B2 & B3 & B4 & B5). destruct (effects_talk linux l H p) as (A1 & A2 & A3 & A4 & A5 & _). unfold all_caught. now rewrite A1, A2, A3, A4, A5. Qed.
(** While the handlers are there, signals kill nothing. *)
Lemma caught_steps linux env l p : Forall talk l -> all_caught p -> exists q, steps linux env l p = On q /\ same (effects linux l p) q /\ all_caught q.
Proof.
  intros Hl Hp. pose proof (steps_out linux l env p) as K. destruct (steps linux env l p) as [q|f] eqn:E.
  - exists q. split; [reflexivity|]. split; [exact K|]. eapply all_caught_same; [exact K|]. now apply all_caught_talk.
  - exfalso. destruct (orderly_over _ _ _ _ _ (orderly_talk linux l p Hl (all_caught_sound p Hp)) E) as (l1 & s & l2 & k & El & _ & C & _).
    rewrite (all_caught_kind k) in C; [discriminate|]. apply all_caught_talk; [|exact Hp]. eapply prefix_talk; eauto.
Qed.
Lemma caught_signals linux l p : all_caught p -> exists q, signals linux l p = On q /\ same p q /\ all_caught q.
Proof.
  intros Hp. pose proof (signals_out linux l p) as K. destruct (signals linux l p) as [q|f].
  - exists q. split; [reflexivity|]. split; [exact K|]. exact (all_caught_same _ _ K Hp).
  - destruct K as (s & _ & K). apply (deadly_sound _ _ _ (all_caught_sound p Hp)) in K as [_ K]. rewrite (all_caught_kind _ p Hp) in K. discriminate.
Qed.
(** A request to end that comes in time is not lost. *)
Lemma steps_stop linux l : forall env p q s, Forall talk l -> all_caught p -> In s (flat_map mo_signals (firstn (length l) env)) -> s = SigInt \/ s = SigTerm ->
  steps linux env l p = On q -> p_stop q <> None.
Proof.
  induction l as [|x l IH]; intros env p q s Hl Hp Hi Hs E; [destruct Hi|]. destruct env as [|m env]; [destruct Hi|]. cbn [length firstn flat_map] in Hi.
  inversion Hl as [|y l' Hx Hl']; subst. cbn [steps hd tl] in E. destruct (caught_signals linux (mo_signals m) p Hp) as (p1 & E1 & S1 & C1). rewrite E1 in E. cbn [go_on] in E.
  destruct (caught_steps linux [Moment [] (mo_out m) (mo_err m)] [x] p1 (Forall_cons _ Hx (Forall_nil _)) C1) as (p2 & E2 & S2 & C2).
  assert (E2' : do_step linux m x p1 = On p2).
  { cbn [steps hd signals fold_left mo_signals go_on] in E2. destruct (do_step linux m x p1) as [z|f] eqn:D; (replace (do_step linux {| mo_signals := []; mo_out := mo_out m; mo_err := mo_err m |} x p1) with (do_step linux m x p1) in E2 by (now destruct x)); rewrite D in E2; cbn [go_on] in E2; congruence. }
  rewrite E2' in E. cbn [go_on] in E. apply in_app_or in Hi as [Hi|Hi]; [|exact (IH env p2 q s Hl' C2 Hi Hs E)].
  pose proof (steps_out linux l env p2) as K. rewrite E in K. destruct K as (_ & _ & _ & _ & _ & _ & K). apply K.
  destruct (effects_talk linux l Hl' p2) as (_ & _ & _ & _ & _ & ->). destruct S2 as (_ & _ & _ & _ & _ & _ & S2). apply S2.
  destruct (effects_talk linux [x] (Forall_cons _ Hx (Forall_nil _)) p1) as (_ & _ & _ & _ & _ & ->). eapply signals_stop; [exact Hi|exact Hs| |exact E1]. apply Hp.
Qed.
Lemma make_orderly linux p : p_points p = false -> orderly linux (Make :: setup) p.
Proof.
  intros H l1 l2 E. destruct l1 as [|s1 [|s2 [|s3 [|s4 [|s5 [|s6 l1]]]]]]; unfold setup in E; cbn [app] in E; inversion E; subst; cbn; unfold sound; cbn; rewrite ?H; try easy.
Qed.
Lemma leave_orderly linux closing x p : sound p -> orderly linux (leave closing ++ [Say x]) p.
Proof.
  intros H. unfold leave. replace ((unset ++ Destroy :: map Say closing) ++ [Say x]) with ((unset ++ [Destroy]) ++ (map Say closing ++ [Say x])) by (rewrite <- !app_assoc; reflexivity).
  apply orderly_app.
  - intros l1 l2 E. unfold unset in E. destruct l1 as [|s1 [|s2 [|s3 [|s4 [|s5 [|s6 l1]]]]]]; cbn [app] in E; inversion E; subst; cbn; try exact H; unfold sound; cbn; easy.
  - apply orderly_talk; [|unfold sound; cbn; easy]. apply Forall_app. split; [|repeat constructor]. apply Forall_map. apply Forall_forall. intros y _. exact I.
Qed.

(** ** Without messages *)
(** Steps that say nothing at level off. *)
Definition hushed (s : step) : Prop := match s with Say l => l <> LOff | SetLevel l => l = LOff | _ => True end.
Lemma steps_hushed linux l : forall env p, p_level p = LOff -> Forall hushed l -> Forall (fun m => mo_signals m = []) env ->
  exists q, steps linux env l p = On q /\ p_level q = LOff.
Proof.
  induction l as [|s l IH]; intros env p Hp Hl He; cbn [steps]; [eauto|]. inversion Hl as [|x y H1 H2]; subst.
  assert (Hm : mo_signals (hd calm env) = []) by (destruct He; [reflexivity|assumption]). rewrite Hm. cbn [signals fold_left go_on].
  assert (D : exists q, do_step linux (hd calm env) s p = On q /\ p_level q = LOff).
  { destruct s as [v|v| | | | |k|k]; cbn [do_step hushed] in *; try (eexists; split; [reflexivity|assumption]).
    - rewrite Hp. exists p. split; [|exact Hp]. destruct v; try reflexivity. now destruct H1.
    - destruct k; eexists; split; reflexivity || exact Hp.
    - destruct k; eexists; split; reflexivity || exact Hp. }
  destruct D as (q & -> & Hq). cbn [go_on]. apply IH; auto. destruct He; [constructor|assumption].
Qed.

Section Program.
  Variable linux : bool.
  Variable listener : Z.
  Variable page : stats -> Z -> bytes.
  Variable cs : bool.
  Variable T : tree.
  Variables library made ok otel privs opened : bool.
  Variables log_path log_level : bytes.
  Variable a : args.
  Variable k0 : kernel.
  Variable w0 : world.
  Variable closing : list level.
  Variables early ready late : list moment.
  Variable brink : list signal.
  Variable its : list (iteration * list signal).
  Notation program := (console_main linux listener page cs T library made ok otel privs opened log_path log_level a k0 w0 closing early ready late brink its).
  Notation fresh := (Proc false false false false false None LInfo).
  Lemma skipn_in {A} n (l : list A) x : In x (skipn n l) -> In x l.
  Proof. intros H. rewrite <- (firstn_skipn n l). apply in_or_app. now right. Qed.

  (** The program when start is called, and what becomes of it then. *)
  Lemma program_cases :
    (exists k m, program = Killed k /\ In m (early ++ late) /\ hit m k) \/
    program = Aborts \/ program = NotDefined \/ program = Runs \/ (exists c, program = Ends c).
  Proof.
    unfold console_main. destruct (log_level_enum log_level) as [l| | |]; auto.
    2: { destruct otel; [|auto]. destruct (steps linux early [Say LInfo] fresh) as [p|f] eqn:E; [auto|left].
      apply orderly_killed in E as (k & m & -> & H1 & H2); [exists k, m; repeat split; auto; apply in_or_app; now left|]. apply orderly_talk; [repeat constructor|now unfold sound]. }
    destruct (steps linux early (opening linux otel privs opened log_path l) fresh) as [p|f] eqn:E1.
    2: { left. apply orderly_killed in E1 as (k & m & -> & H1 & H2); [exists k, m; repeat split; auto; apply in_or_app; now left|]. apply orderly_talk; [apply opening_talk|now unfold sound]. }
    assert (P1 : p_points p = false).
    { pose proof (steps_out linux (opening linux otel privs opened log_path l) early fresh) as K. rewrite E1 in K.
      destruct K as (_ & _ & _ & K & _). rewrite K. now destruct (effects_talk linux _ (opening_talk linux otel privs opened log_path l) fresh) as (_ & _ & _ & -> & _). }
    set (rest := skipn _ early). assert (Hr : forall m, In m rest -> In m early) by (intros m; apply skipn_in).
    destruct (new_server (w_os w0) library (to_server_config a)) as [u| | |]; auto.
    2: { destruct (steps linux rest [Say LCritical] p) as [q|f] eqn:E2; [eauto 6|left].
      apply orderly_killed in E2 as (k & m & -> & H1 & H2); [exists k, m; repeat split; auto; apply in_or_app; left; auto|]. apply orderly_talk; [repeat constructor|unfold sound; congruence]. }
    destruct (steps linux rest (Make :: setup) p) as [q|f] eqn:E2; cbn [go_on].
    2: { left. apply orderly_killed in E2 as (k & m & -> & H1 & H2); [exists k, m; repeat split; auto; apply in_or_app; left; auto|]. now apply make_orderly. }
    assert (Q : all_caught q) by (pose proof (steps_out linux (Make :: setup) rest p) as K; rewrite E2 in K; eapply all_caught_same; [exact K|]; repeat split).
    destruct (caught_steps linux ready (routes a) q (routes_talk a) Q) as (r & -> & _ & R). cbn [go_on].
    destruct (caught_signals linux brink r R) as (z & -> & _ & Z'). pose proof (all_caught_sound z Z') as S.
    destruct (start _ _ _ _ _ _ _ _ _ _ _ _) as [[[] s]| | |]; auto.
    - destruct (steps linux late (leave closing ++ [Say LInfo]) z) as [y|f] eqn:E3; [eauto 6|left].
      apply orderly_killed in E3 as (k & m & -> & H1 & H2); [exists k, m; repeat split; auto; apply in_or_app; now right|]. now apply leave_orderly.
    - destruct (steps linux late (leave closing ++ [Say LCritical]) z) as [y|f] eqn:E3; [eauto 6|left].
      apply orderly_killed in E3 as (k & m & -> & H1 & H2); [exists k, m; repeat split; auto; apply in_or_app; now right|]. now apply leave_orderly.
  Qed.
  Lemma never_stale : program <> Stale.
  Proof. destruct program_cases as [(k & m & -> & _)|[->|[->|[->|(c & ->)]]]]; discriminate. Qed.
  Lemma why_killed k : program = Killed k -> exists m, In m (early ++ late) /\ hit m k.
  Proof. intros H. destruct program_cases as [(k' & m & E & K)|[E|[E|[E|(c & E)]]]]; try congruence. rewrite E in H. injection H as ->. eauto. Qed.

  (** With log level off, and no message about the telemetry. *)
  Lemma never_killed k : otel = false -> log_level_enum log_level = Ret LOff -> ~ In LOff closing ->
    Forall (fun m => mo_signals m = []) early -> Forall (fun m => mo_signals m = []) late -> program <> Killed k.
  Proof.
    intros Ho Hl Hc H1 H2. unfold console_main. rewrite Hl, Ho. set (o := opening linux false privs opened log_path LOff).
    assert (E1 : exists p, steps linux early o fresh = On p /\ p_level p = LOff).
    { destruct (steps_hushed linux o early (Proc false false false false false None LOff)) as (q & E & L); [reflexivity| |exact H1|].
      { unfold o, opening. destruct linux, privs, opened, log_path; repeat constructor; discriminate. }
      exists q. split; [|exact L]. rewrite <- E. unfold o, opening. cbn [Datatypes.app steps].
      assert (Hm : mo_signals (hd calm early) = []) by (destruct H1; [reflexivity|assumption]). rewrite Hm. reflexivity. }
    assert (P1 : forall p, steps linux early o fresh = On p -> p_points p = false).
    { intros p E. pose proof (steps_out linux o early fresh) as K. rewrite E in K.
      destruct K as (_ & _ & _ & K & _). rewrite K. unfold o. now destruct (effects_talk linux _ (opening_talk linux false privs opened log_path LOff) fresh) as (_ & _ & _ & -> & _). }
    destruct E1 as (p & E1 & L1). specialize (P1 p E1). rewrite E1. set (rest := skipn _ early).
    assert (Hr : Forall (fun m => mo_signals m = []) rest) by (apply Forall_forall; intros m Hm; apply skipn_in in Hm; rewrite Forall_forall in H1; auto).
    destruct (new_server (w_os w0) library (to_server_config a)) as [u| | |]; try discriminate.
    2: { destruct (steps_hushed linux [Say LCritical] rest p L1) as (q & -> & _); [repeat constructor; discriminate|exact Hr|discriminate]. }
    destruct (steps_hushed linux (Make :: setup) rest p L1) as (q & E2 & L2); [repeat constructor|exact Hr|]. rewrite E2. cbn [go_on].
    assert (Q : all_caught q) by (pose proof (steps_out linux (Make :: setup) rest p) as K; rewrite E2 in K; eapply all_caught_same; [exact K|]; repeat split).
    destruct (caught_steps linux ready (routes a) q (routes_talk a) Q) as (r & -> & S1 & R). cbn [go_on].
    destruct (caught_signals linux brink r R) as (z & -> & S2 & Z').
    assert (Lz : p_level z = LOff).
    { destruct S2 as (_ & _ & _ & _ & _ & -> & _). destruct S1 as (_ & _ & _ & _ & _ & -> & _). unfold routes.
      destruct (a_under_test a), (a_status_page a), (a_static_map a) as [|x [|y []]]; exact L2. }
    assert (Hh : forall x, x <> LOff -> Forall hushed (leave closing ++ [Say x])).
    { intros x Hx. unfold leave. apply Forall_app. split; [|repeat constructor; exact Hx]. apply Forall_app. split; [repeat constructor|]. constructor; [exact I|].
      apply Forall_map, Forall_forall. intros y Hy. cbn. congruence. }
    destruct (start _ _ _ _ _ _ _ _ _ _ _ _) as [[[] s]| | |]; try discriminate.
    - destruct (steps_hushed linux (leave closing ++ [Say LInfo]) late z Lz) as (y & -> & _); [now apply Hh|exact H2|discriminate].
    - destruct (steps_hushed linux (leave closing ++ [Say LCritical]) late z Lz) as (y & -> & _); [now apply Hh|exact H2|discriminate].
  Qed.

  (** If nothing happens before and after start. *)
  Lemma program_calm : Forall uneventful early -> Forall uneventful late -> exists stopped,
    (Forall uneventful ready -> brink = [] -> stopped = None) /\
    ((exists s, In s (brink ++ flat_map mo_signals (firstn (length (routes a)) ready)) /\ (s = SigInt \/ s = SigTerm)) -> stopped <> None) /\
    program =
    match log_level_enum log_level with
    | Ret _ =>
      match
        (let! _ := new_server (w_os w0) library (to_server_config a) in
         start linux listener world (main_app page a) cs T made ok stopped k0 w0 (map (with_signals linux) its))
      with
      | Ret (true, _) => Ends 0
      | Ret (false, _) => Runs
      | Throw => Ends 1
      | Undef | Fuel => NotDefined
      end
    | Throw => Aborts
    | Undef | Fuel => NotDefined
    end.
  Proof.
    intros H1 H3.
    assert (Q : forall l, all_caught (effects linux (Make :: setup) (effects linux (opening linux otel privs opened log_path l) fresh)) /\
      p_stop (effects linux (Make :: setup) (effects linux (opening linux otel privs opened log_path l) fresh)) = None).
    { intros l. cbn [effects fold_left setup]. split; [repeat split|reflexivity]. }
    assert (G : forall l, exists stopped p,
      go_on (go_on (On (effects linux (Make :: setup) (effects linux (opening linux otel privs opened log_path l) fresh))) (steps linux ready (routes a))) (signals linux brink) = On p /\
      p_stop p = stopped /\ (Forall uneventful ready -> brink = [] -> stopped = None) /\
      ((exists s, In s (brink ++ flat_map mo_signals (firstn (length (routes a)) ready)) /\ (s = SigInt \/ s = SigTerm)) -> stopped <> None)).
    { intros l. destruct (Q l) as [Qc Qn]. revert Qc Qn. generalize (effects linux (Make :: setup) (effects linux (opening linux otel privs opened log_path l) fresh)). intros q Qc Qn. cbn [go_on].
      destruct (caught_steps linux ready (routes a) q (routes_talk a) Qc) as (r & Er & S1 & R). rewrite Er. cbn [go_on].
      destruct (caught_signals linux brink r R) as (z & Ez & S2 & Z'). exists (p_stop z), z. split; [exact Ez|]. split; [reflexivity|]. split.
      - intros Hr Hb. rewrite Hb in Ez. injection Ez as <-. rewrite (steps_calm linux (routes a) ready q Hr) in Er. injection Er as <-.
        destruct (effects_talk linux (routes a) (routes_talk a) q) as (_ & _ & _ & _ & _ & ->). exact Qn.
      - intros (s & Hi & Hs). apply in_app_or in Hi as [Hi|Hi].
        + eapply signals_stop; [exact Hi|exact Hs| |exact Ez]. apply R.
        + destruct S2 as (_ & _ & _ & _ & _ & _ & S2). apply S2. eapply steps_stop; [apply routes_talk|exact Qc|exact Hi|exact Hs|exact Er]. }
    unfold console_main. destruct (log_level_enum log_level) as [l| | |].
    - destruct (G l) as (stopped & p & Ep & Es & G1 & G2). exists stopped. split; [exact G1|]. split; [exact G2|].
      rewrite steps_calm by exact H1. set (rest := skipn _ early).
      assert (Hr : Forall uneventful rest) by (apply Forall_forall; intros m Hm; apply skipn_in in Hm; rewrite Forall_forall in H1; auto).
      destruct (new_server (w_os w0) library (to_server_config a)) as [u| | |]; cbn [obind]; try reflexivity.
      + rewrite steps_calm by exact Hr. rewrite Ep, Es. destruct (start _ _ _ _ _ _ _ _ _ _ _ _) as [[[] s]| | |]; try reflexivity; now rewrite steps_calm by exact H3.
      + now rewrite steps_calm by exact Hr.
    - destruct (G LInfo) as (stopped & p & _ & _ & G1 & G2). exists stopped. split; [exact G1|]. split; [exact G2|]. destruct otel; [now rewrite steps_calm by exact H1|reflexivity].
    - destruct (G LInfo) as (stopped & p & _ & _ & G1 & G2). exists stopped. auto.
    - destruct (G LInfo) as (stopped & p & _ & _ & G1 & G2). exists stopped. auto.
  Qed.
  (** Standard output is gone when the program is about to say goodbye. *)
  Lemma goodbye l late1 m late2 : Forall uneventful early -> Forall uneventful ready -> brink = [] ->
    late = late1 ++ m :: late2 -> Forall uneventful late1 -> length late1 = length (leave closing) -> mo_signals m = [] -> mo_out m = Pipe true ->
    log_level_enum log_level = Ret l -> severity l <= severity LInfo ->
    main linux listener page cs T library made ok log_level a k0 w0 its = Exits 0 -> program = Killed KPipe.
  Proof.
    intros H1 H2 Hb Hl L1 L2 M1 M2 Hg Hs. unfold main, console_main. rewrite Hg.
    destruct (new_server (w_os w0) library (to_server_config a)) as [u| | |]; cbn [obind]; try discriminate.
    rewrite steps_calm by exact H1. set (rest := skipn _ early).
    assert (Hr : Forall uneventful rest) by (apply Forall_forall; intros x Hx; apply skipn_in in Hx; rewrite Forall_forall in H1; auto).
    rewrite steps_calm by exact Hr. cbn [go_on]. rewrite steps_calm by exact H2. cbn [go_on]. rewrite Hb. cbn [signals fold_left].
    set (p := effects linux (opening linux otel privs opened log_path l) fresh).
    assert (Pl : p_level p = l) by (unfold p, opening; destruct otel, linux, log_path; reflexivity).
    set (z := effects linux (routes a) (effects linux (Make :: setup) p)).
    assert (Zl : p_level z = l) by (unfold z, routes; destruct (a_under_test a), (a_status_page a), (a_static_map a) as [|x [|y []]]; exact Pl).
    assert (Zs : p_stop z = None) by (unfold z; now destruct (effects_talk linux (routes a) (routes_talk a) (effects linux (Make :: setup) p)) as (_ & _ & _ & _ & _ & ->)).
    rewrite Zs. destruct (start _ _ _ _ _ _ _ _ _ _ _ _) as [[[] s]| | |]; try discriminate. intros _.
    rewrite Hl, steps_app. rewrite steps_enough by exact L2. rewrite steps_calm by exact L1. cbn [go_on].
    replace (skipn (length (leave closing)) (late1 ++ m :: late2)) with (m :: late2) by (rewrite <- L2; rewrite skipn_app, skipn_all, Nat.sub_diag; reflexivity).
    set (y := effects linux (leave closing) z).
    assert (Y : p_pipe y = false /\ p_level y = l).
    { replace y with (effects linux (map Say closing) (effect linux (effects linux unset z) Destroy)) by (unfold y, leave, effects; now rewrite fold_left_app). split.
      - destruct (effects_talk linux (map Say closing)) with (p := effect linux (effects linux unset z) Destroy) as (_ & _ & K & _); [apply Forall_map, Forall_forall; intros x _; exact I|]. rewrite K. reflexivity.
      - assert (K : forall c q, p_level (effects linux (map Say c) q) = p_level q) by (induction c as [|x c IH]; intros q; [reflexivity|]; exact (IH q)). rewrite K. exact Zl. }
    destruct Y as [Y1 Y2]. cbn [steps hd]. rewrite M1. cbn [signals fold_left go_on do_step]. rewrite Y2, M2.
    destruct (Z.leb_spec (severity l) (severity LInfo)); [|lia]. unfold arrive. cbn [kind_of caught]. rewrite Y1. reflexivity.
  Qed.
End Program.
