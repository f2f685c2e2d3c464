(** Requests that name nothing: the path is read as text (C80). *)
From Verif Require Import Base BaseLemmas Http FileSys Files SpecFiles FilesProofs FilesServe.

Lemma walk_no_such fs n : forall l cs, walk fs n l cs = Err ENOENT \/ walk fs n l cs = Err ENOTDIR <-> no_such fs n l cs.
Proof.
  intros l cs. split.
  - revert l cs. induction n as [|n IHn]; (intros l cs; revert l; induction cs as [|c cs IH]; intros l E;
      [rewrite walk_nil in E; destruct E; discriminate|]); rewrite walk_cons in E.
    all: destruct (fs l) as [[? ? ?|x|?|]|] eqn:El; try (apply no_such_dir; intros y; rewrite El; discriminate).
    all: destruct (null c) eqn:En; [apply null_eq in En as ->; eapply no_such_slash; eauto|].
    all: destruct x; cbn [negb] in E; [|destruct E; discriminate].
    all: destruct (bytes_eqb c dot) eqn:E1; [apply bytes_eqb_eq in E1 as ->; eapply no_such_dot; eauto|].
    all: destruct (bytes_eqb c dotdot) eqn:E2; [apply bytes_eqb_eq in E2 as ->; eapply no_such_up; eauto|].
    all: apply null_ne in En; apply bytes_eqb_neq in E1, E2.
    all: destruct (fs (l ++ [c])) as [[? ? ?|y|t|]|] eqn:Ee;
      try (eapply no_such_after; [eauto|eauto|eauto|eauto|exact Ee|discriminate|auto]); try (now apply no_such_name).
    + destruct E; discriminate.
    + eapply no_such_link; eauto.
  - induction 1 as [n l c cs H H1 H2 H3 H4|n l c cs H|n l x cs H _ IH|n l cs H _ IH|n l cs H _ IH|n l c cs e H H1 H2 H3 H4 H5 _ IH|n l c cs t H H1 H2 H3 H4 _ IH];
      rewrite walk_cons.
    + apply null_ne in H1. apply bytes_eqb_neq in H2, H3. rewrite H, H1, H2, H3, H4. now left.
    + destruct (fs l) as [[]|]; auto. exfalso. now apply (H search).
    + now rewrite H.
    + now rewrite H.
    + rewrite H. exact IH.
    + apply null_ne in H1. apply bytes_eqb_neq in H2, H3. rewrite H, H1, H2, H3, H4. destruct e; auto. exfalso. now apply (H5 target).
    + apply null_ne in H1. apply bytes_eqb_neq in H2, H3. rewrite H, H1, H2, H3, H4. exact IH.
Qed.

(** ** lexically_normal *)
Definition step (acc : list bytes) (c : bytes) : list bytes :=
  if bytes_eqb c dotdot then removelast acc else if bytes_eqb c dot || null c then acc else acc ++ [c].
Definition special (c : bytes) : bool := bytes_eqb c dotdot || (bytes_eqb c dot || null c).
Lemma removelast_rev (st : list bytes) : removelast (rev st) = rev (tl st).
Proof. destruct st as [|c st]; [reflexivity|]. cbn [rev tl]. apply removelast_last. Qed.
Lemma normal_tidy p : forall st sl,
  normal st sl p = fold_left step p (rev st) ++
    (if (match p with [] => sl | _ => special (last p []) end) && negb (null (fold_left step p (rev st))) then [[]] else []).
Proof.
  induction p as [|c p IH]; intros st sl.
  - cbn [normal fold_left]. f_equal. destruct st as [|x st]; [reflexivity|]. cbn [null rev]. destruct (rev st); reflexivity.
  - cbn [normal fold_left]. unfold step at 2 4, special. destruct (bytes_eqb c dotdot) eqn:E1; [|destruct (bytes_eqb c dot || null c) eqn:E2].
    + rewrite IH, removelast_rev. f_equal. destruct p as [|d p]; [cbn [last]; now rewrite E1|reflexivity].
    + rewrite IH. f_equal. destruct p as [|d p]; [cbn [last]; now rewrite E1, E2|reflexivity].
    + rewrite IH. cbn [rev]. f_equal. destruct p as [|d p]; [cbn [last]; now rewrite E1, E2|reflexivity].
Qed.
Lemma normal_eq p : lexically_normal p = tidy p.
Proof.
  unfold lexically_normal, tidy. rewrite normal_tidy. cbn [rev]. change (fold_left step p []) with (names p). f_equal.
  destruct p as [|c p]; [reflexivity|]. set (x := last (c :: p) []). cbn [existsb]. rewrite orb_false_r. unfold special.
  assert (E : bytes_eqb x [] = null x) by (destruct x; reflexivity). rewrite E.
  destruct (null x), (bytes_eqb x dot), (bytes_eqb x dotdot); reflexivity.
Qed.

Section Missing.
  Variable o : os.
  Hypothesis Hcwd : real_place (os_fs o) (os_cwd o).
  Notation fs := (os_fs o).
  Notation wk := (walk (os_fs o) (os_links o)).

  Lemma cut_one c : cut [c] = [c_str c].
  Proof. cbn [cut]. destruct (has_zero c) eqn:E; [reflexivity|]. apply has_zero_out in E. now rewrite c_str_id. Qed.
  Lemma append_eq l0 rel : elements rel <> [] -> fs_append l0 rel = (if absolute rel then [] else l0) ++ elements rel.
  Proof. intros H. unfold fs_append. destruct (absolute rel); [reflexivity|]. now destruct rel. Qed.
  Lemma start_real l0 rel : real_place fs l0 -> real_place fs (if absolute rel then [] else l0).
  Proof. intros H. destruct (absolute rel); [apply real_nil|exact H]. Qed.

  (** A path with a missing component leads nowhere. *)
  Lemma textual_walk l0 rel q : real_place fs l0 -> (exists x, fs l0 = Some (EDir x)) -> textual o l0 rel q ->
    wk (if absolute rel then [] else l0) (elements (c_str rel)) = Err ENOENT \/ wk (if absolute rel then [] else l0) (elements (c_str rel)) = Err ENOTDIR.
  Proof.
    intros Hl Hx [a c b L E1 E2 E3 E4 _]. rewrite <- append_walk by (auto; exact (root_dir o l0 Hl Hx)).
    rewrite append_eq by (rewrite E1; now destruct a). pose proof (start_real l0 rel Hl) as Hs. set (st := if absolute rel then [] else l0) in *.
    pose proof (real_clean _ _ Hs) as [_ HZ]. rewrite cut_app by exact HZ. rewrite real_walk by exact Hs. rewrite E1, cut_app by exact E2.
    change (c :: b) with ([c] ++ b). destruct (cut_front [c] b) as [b' Eb]. rewrite cut_one in Eb. unfold bytes in *. rewrite Eb, app_assoc.
    apply walk_no_such in E4. destruct E4 as [E4|E4]; [left|right]; now apply walk_err_app.
  Qed.
  Lemma textual_nowhere l0 rel q l : real_place fs l0 -> (exists x, fs l0 = Some (EDir x)) -> textual o l0 rel q -> ~ leads_to o l0 rel l.
  Proof.
    intros Hl Hx H K. unfold leads_to in K. apply walk_resolves in K. destruct (textual_walk l0 rel q Hl Hx H) as [E|E]; congruence.
  Qed.
  (** There is only one way to read it. *)
  Lemma textual_unique l0 rel q q' : textual o l0 rel q -> textual o l0 rel q' -> q = q'.
  Proof.
    intros [a c b L E1 E2 E3 E4 ->] [a' c' b' L' E1' E2' E3' E4' ->].
    apply walk_resolves in E3, E3'. apply walk_no_such in E4, E4'.
    assert (K : forall st a c b L a' c' m, a = a' ++ c' :: m -> Forall (fun d => ~ In 0 d) a -> wk st a = At L ->
      (wk st (a' ++ [c_str c']) = Err ENOENT \/ wk st (a' ++ [c_str c']) = Err ENOTDIR) -> forall b' : list bytes, a ++ c :: b = a' ++ c' :: b' -> False).
    { clear. intros st a c b L a' c' m -> H E K b' _. apply Forall_app in H as [_ H]. apply Forall_cons_iff in H as [H _].
      rewrite (c_str_id c' H) in K. assert (E' : wk st ((a' ++ [c']) ++ m) = At L) by now rewrite <- app_assoc.
      destruct K as [K|K]; pose proof (eq_trans (eq_sym (walk_err_app _ _ _ _ _ K m)) E') as X; discriminate X. }
    assert (E : a ++ c :: b = a' ++ c' :: b') by congruence.
    pose proof E as E0. apply app_eq_app in E0 as (m & [[K1 K2]|[K1 K2]]).
    - destruct m as [|d m].
      + rewrite app_nil_r in K1. subst a'. cbn [app] in K2. injection K2 as -> ->. rewrite E3 in E3'. now injection E3' as ->.
      + cbn [app] in K2. injection K2 as <- _. exfalso. exact (K _ a c b L a' c' m K1 E2 E3 E4' b' E).
    - destruct m as [|d m].
      + rewrite app_nil_r in K1. subst a'. cbn [app] in K2. injection K2 as -> ->. rewrite E3 in E3'. now injection E3' as ->.
      + cbn [app] in K2. injection K2 as <- _. exfalso. exact (K _ a' c' b' L' a c m K1 E2' E3' E4 b (eq_sym E)).
  Qed.

  Lemma missing_path root l0 rel : root_at o root l0 -> (forall l, ~ leads_to o l0 rel l) ->
    (sanitize_path o root rel = None /\ forall q, ~ textual o l0 rel q) \/
    exists a c b L, elements rel = a ++ c :: b /\ real_place fs L /\ textual o l0 rel (tidy (L ++ c :: b)) /\
      sanitize_path o root rel = if within l0 (tidy (L ++ c :: b)) then Some (path_string (tidy (L ++ c :: b))) else None.
  Proof.
    intros Hr Hno. pose proof Hr as (_ & _ & Hx & _). destruct (root_status o Hcwd root l0 Hr) as (_ & _ & _ & _ & Hl).
    pose proof (root_dir o l0 Hl Hx) as H0. pose proof (append_clean o l0 rel Hl) as Hp. pose proof (append_walk o l0 rel Hl H0 Hx) as Haw.
    unfold sanitize_path. rewrite (sanitize_eq o Hcwd root l0) by auto.
    unfold weakly_canonical, fs_exists, fs_status. rewrite resolve_cut by auto.
    destruct (wk [] (cut (fs_append l0 rel))) as [l|e] eqn:Eq; symmetry in Haw.
    { exfalso. apply (Hno l). unfold leads_to. now apply walk_resolves. }
    assert (Hne : elements rel <> []).
    { intros K. destruct (elements_cut rel) as [E|[E1 E2]]; [|now rewrite K in E2]. rewrite K in E. cbn in E. rewrite <- E, walk_nil in Haw. discriminate. }
    assert (Htw : forall q, textual o l0 rel q -> e = ENOENT \/ e = ENOTDIR).
    { intros q Hq. destruct (textual_walk l0 rel q Hl Hx Hq) as [K|K]; rewrite Haw in K; injection K as ->; auto. }
    destruct (match e with EACCES | ELOOP => true | _ => false end) eqn:Ee.
    { left. split; [now destruct e|]. intros q Hq. destruct (Htw q Hq) as [->| ->]; discriminate. }
    right. replace (match Err e with At l => Ret (fs l) | Err ENOENT | Err ENOTDIR => Ret None | Err _ => Throw end) with (Ret (A := option entry) None) by now destruct e.
    cbn [obind].
    pose proof (leading_spec o (fs_append l0 rel) [] [] Hp (walk_nil _ _ _) H0) as HL.
    destruct (leading o [] (fs_append l0 rel)) as [[r rest]| | |] eqn:Elead.
    2-4: exfalso.
    { cbn [obind]. destruct HL as (L & E1 & E2 & E3). cbn [app] in E1. rewrite E1 in Hp.
      unfold fs_canonical. rewrite resolve_cut by (auto; now apply clean_front in Hp). rewrite E2. cbn [obind].
      destruct rest as [|c rest]; [exfalso; rewrite app_nil_r in E1; congruence|].
      assert (Hz : Forall (fun c => ~ In 0 c) r /\ cut (r ++ [c]) = r ++ cut [c]).
      { destruct (cut_more r [c]) as [K|[_ K]]; [exact K|]. exfalso. unfold path, bytes in *. rewrite K, E2 in E3. destruct E3; discriminate. }
      destruct Hz as [Hz Ec]. rewrite (cut_id r Hz) in E2. unfold path, bytes in *. rewrite Ec, cut_one in E3.
      assert (HLr : real_place fs L).
      { eapply walk_real; [apply real_nil| |exact E2]. rewrite <- (cut_id r Hz). apply cut_parts, clean_parts. eapply clean_front; exact Hp. }
      rewrite append_eq in E1 by exact Hne. pose proof (start_real l0 rel Hl) as Hs.
      set (st := if absolute rel then [] else l0) in *.
      assert (Hsplit : exists a, r = st ++ a /\ elements rel = a ++ c :: rest).
      { symmetry in E1. apply app_eq_app in E1 as (m & [[K1 K2]|[K1 K2]]); [eauto|].
        destruct m as [|d m]; [exists []; rewrite app_nil_r in *; now split|]. exfalso.
        injection K2 as <- _. assert (Hpre : real_place fs (r ++ [c])) by (apply (real_prefix _ _ m); rewrite <- app_assoc; cbn [app]; unfold path, location, bytes in *; rewrite <- K1; exact Hs).
        pose proof (real_clean _ _ Hpre) as [_ HZ]. apply Forall_app in HZ as [_ HZ]. apply Forall_cons_iff in HZ as [HZ _].
        rewrite (c_str_id c HZ) in E3. pose proof (real_walk _ _ Hpre (os_links o) []) as K. rewrite app_nil_r, walk_nil in K. unfold bytes in *. rewrite K in E3. destruct E3; discriminate. }
      destruct Hsplit as (a & -> & Ea). apply Forall_app in Hz as [_ Hz]. rewrite real_walk in E2 by exact Hs. rewrite <- app_assoc, real_walk in E3 by exact Hs.
      exists a, c, rest, L. split; [exact Ea|]. split; [exact HLr|]. split.
      - eapply textual_path; [exact Ea|exact Hz|apply walk_resolves; exact E2|apply walk_no_such; exact E3|reflexivity].
      - rewrite normal_eq. destruct (within l0 _); reflexivity. }
    all: cbn [app] in HL; unfold path, bytes in *; rewrite Eq in HL; destruct HL as [HL|HL]; injection HL as ->; discriminate.
  Qed.

  Lemma stands_resolve L c b l0 rel a : real_place fs l0 -> (exists x, fs [] = Some (EDir x)) -> real_place fs L -> elements rel = a ++ c :: b ->
    clean (tidy (L ++ c :: b)) /\
    forall l, resolve o (path_string (tidy (L ++ c :: b))) = At l <-> stands_at o (tidy (L ++ c :: b)) l.
  Proof.
    intros Hl H0 HL Ea.
    assert (Hc : clean (tidy (L ++ c :: b))).
    { rewrite <- normal_eq. destruct (normal_shape (L ++ c :: b)) with (st := @nil bytes) (sl := false) as (ns & t & E & Hn & Ht).
      - pose proof (elements_clean rel) as Hp. rewrite Ea in Hp. apply clean_parts in Hp. apply Forall_app in Hp as [_ Hp].
        apply Forall_app. split; [|exact Hp]. apply clean_parts. exact (proj1 (real_clean _ _ HL)).
      - constructor.
      - unfold lexically_normal. rewrite E. now apply shape_clean. }
    split; [exact Hc|]. intros l. unfold stands_at. set (q := tidy (L ++ c :: b)) in *. clearbody q.
    rewrite <- walk_resolves. rewrite resolve_cut by auto.
    change (flat_map (fun c => SLASH :: c) q) with (joined q). rewrite joined_cut.
    destruct (clean_cut q Hc) as [K|K].
    - assert (Ej : elements (joined (cut q)) = cut q) by (destruct (cut q) eqn:Ec; [reflexivity|]; rewrite <- Ec in *; pose proof (elements_string _ K) as E; unfold path_string in E; rewrite Ec in E at 1; exact E).
      now rewrite Ej.
    - rewrite K. destruct H0 as [x Hx]. rewrite walk_cons, Hx. cbn [null]. reflexivity.
  Qed.
End Missing.
