(** Proofs about the router (C55, C56). *)
From Verif Require Import Base BaseLemmas Http FileSys Files SpecFiles FilesProofs FilesServe Router SpecRouter.

Section Proofs.
  Variable W : Type.
  Variable files : W -> os.
  Notation registration := (registration W).

  Definition routes_of (xs : list registration) : list (route W) :=
    flat_map (fun x => match x with AddRoute p m h => [Route W p m h] | _ => [] end) xs.
  Definition statics_of (xs : list registration) : list static :=
    flat_map (fun x => match x with AddStatic s => [s] | _ => [] end) xs.

  Lemma configure_snoc xs x : configure W (xs ++ [x]) = register W (configure W xs) x.
  Proof. unfold configure. now rewrite fold_left_app. Qed.
  Lemma configure_parts xs :
    r_routes W (configure W xs) = routes_of xs /\ r_static W (configure W xs) = statics_of xs.
  Proof.
    induction xs as [|x xs [IH1 IH2]] using rev_ind; [now split|].
    rewrite configure_snoc. unfold routes_of, statics_of in *. rewrite !flat_map_app.
    destruct x as [p m h|s|m]; cbn [register add_route add_static_handler add_middleware r_routes r_static flat_map];
      rewrite IH1, IH2, ?app_nil_r; now split.
  Qed.
  Lemma configure_chain xs : forall h w, wraps W (middlewares W xs) h w (r_chain W (configure W xs) h w).
  Proof.
    induction xs as [|x xs IH] using rev_ind; intros h w; [apply wraps_none|].
    rewrite configure_snoc. unfold middlewares in *. rewrite flat_map_app. cbn [flat_map].
    destruct x as [p m h'|s|m]; cbn [register add_route add_static_handler add_middleware r_chain app]; try (rewrite app_nil_r; apply IH).
    destruct (m h w) as [w1 [h1|]] eqn:E.
    - eapply wraps_more; [exact E|apply IH].
    - eapply wraps_throws. exact E.
  Qed.
  Lemma wraps_unique ms h w r1 : wraps W ms h w r1 -> forall r2, wraps W ms h w r2 -> r1 = r2.
  Proof.
    induction 1 as [h w|ms m h w w1 h1 res E _ IH|ms m h w w1 E]; intros r2 H2.
    - inversion H2 as [|ms m h' w' w1 h1 res E H3 H4|ms m h' w' w1 E H4]; [reflexivity| |]; now destruct ms.
    - inversion H2 as [? ? H4|ms' m' h' w' w1' h1' res' E' H3 H4|ms' m' h' w' w1' E' H4]; [now destruct ms| |];
        apply app_inj_tail in H4 as [-> ->]; rewrite E in E'; [injection E' as <- <-; auto|discriminate].
    - inversion H2 as [? ? H4|ms' m' h' w' w1' h1' res' E' H3 H4|ms' m' h' w' w1' E' H4]; [now destruct ms| |];
        apply app_inj_tail in H4 as [-> ->]; rewrite E in E'; [discriminate|now injection E' as <-].
  Qed.

  (** The two loops. *)
  Lemma find_route_spec xs p m :
    match find_route W (routes_of xs) p m with
    | Some h => exists a b, xs = a ++ AddRoute p m h :: b /\ forall x, In x a -> ~ is_route W p m x
    | None => forall x, In x xs -> ~ is_route W p m x
    end.
  Proof.
    induction xs as [|x xs IH]; [easy|]. unfold routes_of in *. cbn [flat_map].
    destruct x as [p' m' h|s|mw].
    - cbn [app find_route rt_path rt_method rt_handler]. destruct (bytes_eqb p' p && bytes_eqb m' m) eqn:E.
      + apply andb_true_iff in E as [E1 E2]. apply bytes_eqb_eq in E1, E2. subst. exists [], xs. now split.
      + assert (N : ~ is_route W p m (AddRoute p' m' h)).
        { intros [h' K]. injection K as <- <- _. rewrite !bytes_eqb_refl in E. discriminate. }
        destruct (find_route W _ p m) as [h'|].
        * destruct IH as (a & b & -> & H). exists (AddRoute p' m' h :: a), b. split; [reflexivity|].
          intros x [<-|Hx]; auto.
        * intros x [<-|Hx]; auto.
    - cbn [app]. destruct (find_route W _ p m) as [h'|].
      + destruct IH as (a & b & -> & H). exists (AddStatic s :: a), b. split; [reflexivity|]. intros x [<-|Hx]; [now intros [? K]|auto].
      + intros x [<-|Hx]; [now intros [? K]|auto].
    - cbn [app]. destruct (find_route W _ p m) as [h'|].
      + destruct IH as (a & b & -> & H). exists (AddMiddleware mw :: a), b. split; [reflexivity|]. intros x [<-|Hx]; [now intros [? K]|auto].
      + intros x [<-|Hx]; [now intros [? K]|auto].
  Qed.
  Lemma matches_prefix s p : static_matches s p = true <-> exists rest, p = st_prefix s ++ rest.
  Proof.
    unfold static_matches. split; [intros H; now apply starts_with_inv in H|]. intros [rest ->]. apply starts_with_app.
  Qed.
  Lemma find_static_spec xs p m : forall t,
    (find_static W files (statics_of xs) p m t = t /\ forall x, In x xs -> ~ is_prefix_of W p x) \/
    (exists a b s rest, xs = a ++ AddStatic s :: b /\ p = st_prefix s ++ rest /\ (forall x, In x b -> ~ is_prefix_of W p x) /\
       find_static W files (statics_of xs) p m t = static_route W files s p m).
  Proof.
    induction xs as [|x xs IH]; intros t; [left; now split|]. unfold statics_of in *. cbn [flat_map].
    destruct x as [p' m' h|s|mw].
    - cbn [app]. destruct (IH t) as [[E H]|(a & b & s & rest & -> & E)].
      + left. split; [auto|]. intros x [<-|Hx]; [intros (? & ? & K & _); discriminate|auto].
      + right. exists (AddRoute p' m' h :: a), b, s, rest. now split.
    - cbn [app find_static]. set (t' := if static_matches s p then _ else t).
      destruct (IH t') as [[E H]|(a & b & s' & rest & -> & E)].
      + rewrite E. subst t'. destruct (static_matches s p) eqn:M.
        * right. apply matches_prefix in M as [rest ->]. now exists [], xs, s, rest.
        * left. split; [auto|]. intros x [<-|Hx]; [|auto]. intros (s' & rest & K & ->). injection K as <-.
          assert (static_matches s (st_prefix s ++ rest) = true) by (apply matches_prefix; eauto). congruence.
      + right. exists (AddStatic s :: a), b, s', rest. now split.
    - cbn [app]. destruct (IH t) as [[E H]|(a & b & s & rest & -> & E)].
      + left. split; [auto|]. intros x [<-|Hx]; [intros (? & ? & K & _); discriminate|auto].
      + right. exists (AddMiddleware mw :: a), b, s, rest. now split.
  Qed.
  Lemma static_route_answers s p m : static_matches s p = true -> answers W files p m (ToStatic W s) (static_route W files s p m).
  Proof.
    intros M. apply answers_static. intros rq w. destruct (asks_some s p M) as [rel Ha].
    unfold static_route. rewrite (handle_eq _ s p _ rel Ha). eauto.
  Qed.

  Lemma target_spec xs p m : exists d h,
    chosen W xs p m d /\ answers W files p m d h /\
    forall w, get_handler W files (configure W xs) p m w = r_chain W (configure W xs) h w.
  Proof.
    unfold get_handler. destruct (configure_parts xs) as [-> ->]. pose proof (find_route_spec xs p m) as HR.
    destruct (find_route W (routes_of xs) p m) as [h|].
    { destruct HR as (a & b & E & H). exists (ToRoute W h), h. split; [|split; [constructor|reflexivity]]. econstructor; eauto. }
    destruct (bytes_eqb m (str "GET") || bytes_eqb m (str "HEAD")) eqn:EM.
    - assert (HM : m = str "GET" \/ m = str "HEAD").
      { apply orb_true_iff in EM as [EM|EM]; apply bytes_eqb_eq in EM; auto. }
      destruct (find_static_spec xs p m (default_handler W)) as [[E H]|(a & b & s & rest & E & Ep & H & E2)].
      + rewrite E. exists (ToNothing W), (default_handler W). split; [apply chosen_nothing; auto|]. split; [now constructor|reflexivity].
      + rewrite E2. exists (ToStatic W s), (static_route W files s p m). split; [econstructor; eauto|].
        split; [|reflexivity]. apply static_route_answers. apply matches_prefix. eauto.
    - apply orb_false_iff in EM as [E1 E2]. apply bytes_eqb_neq in E1, E2.
      exists (ToNothing W), (default_handler W). split; [apply chosen_nothing; auto|]. split; [now constructor|reflexivity].
  Qed.

  Lemma split_unique {A} (P : A -> Prop) a x b a' x' b' : a ++ x :: b = a' ++ x' :: b' ->
    (forall y, In y a -> ~ P y) -> (forall y, In y a' -> ~ P y) -> P x -> P x' -> x = x'.
  Proof.
    revert a'. induction a as [|y a IH]; intros [|y' a'] E H H' Hx Hx'; cbn in E; injection E as E1 E2.
    - auto.
    - subst. exfalso. apply (H' y'); [now left|auto].
    - subst. exfalso. apply (H x'); [now left|auto].
    - apply (IH a'); auto; intros z Hz; [apply H|apply H']; now right.
  Qed.
  Lemma split_unique_last {A} (P : A -> Prop) a x b a' x' b' : a ++ x :: b = a' ++ x' :: b' ->
    (forall y, In y b -> ~ P y) -> (forall y, In y b' -> ~ P y) -> P x -> P x' -> x = x'.
  Proof.
    intros E H H' Hx Hx'. apply (f_equal (@rev A)) in E. rewrite !rev_app_distr in E. cbn [rev] in E.
    rewrite <- !app_assoc in E. cbn [app] in E. eapply split_unique with (P := P); [exact E| | |auto|auto].
    - intros y Hy. apply H. now apply in_rev.
    - intros y Hy. apply H'. now apply in_rev.
  Qed.
  Lemma chosen_unique xs p m d : chosen W xs p m d -> forall d', chosen W xs p m d' -> d = d'.
  Proof.
    intros H d' H'. destruct H as [a b h E Ha|a b s rest Hn Hm E Ep Hb|Hn Hor];
      destruct H' as [a' b' h' E' Ha'|a' b' s' rest' Hn' Hm' E' Ep' Hb'|Hn' Hor']; try reflexivity.
    - rewrite E in E'. pose proof (split_unique (is_route W p m) _ _ _ _ _ _ E' Ha Ha' ltac:(now exists h) ltac:(now exists h')) as K.
      now injection K as <-.
    - exfalso. apply (Hn' (AddRoute p m h)); [rewrite E; apply in_or_app; right; now left|now exists h].
    - exfalso. apply (Hn' (AddRoute p m h)); [rewrite E; apply in_or_app; right; now left|now exists h].
    - exfalso. apply (Hn (AddRoute p m h')); [rewrite E'; apply in_or_app; right; now left|now exists h'].
    - rewrite E in E'.
      pose proof (split_unique_last (is_prefix_of W p) _ _ _ _ _ _ E' Hb Hb' ltac:(now exists s, rest) ltac:(now exists s', rest')) as K.
      now injection K as <-.
    - exfalso. destruct Hor' as [[K1 K2]|K]; [destruct Hm; auto|].
      apply (K (AddStatic s)); [rewrite E; apply in_or_app; right; now left|now exists s, rest].
    - exfalso. apply (Hn (AddRoute p m h')); [rewrite E'; apply in_or_app; right; now left|now exists h'].
    - exfalso. destruct Hor as [[K1 K2]|K]; [destruct Hm'; auto|].
      apply (K (AddStatic s')); [rewrite E'; apply in_or_app; right; now left|now exists s', rest'].
  Qed.

  Lemma dispatch_spec xs rq d : chosen W xs (rq_path rq) (rq_method rq) d ->
    exists h, answers W files (rq_path rq) (rq_method rq) d h /\
      forall w w1 res, wraps W (middlewares W xs) h w (w1, res) ->
        dispatch W files (configure W xs) rq w =
          match res with
          | None => (w1, Escapes)
          | Some h' => (fst (h' rq w1), match snd (h' rq w1) with Some r => Answers r | None => Fails end)
          end.
  Proof.
    intros Hd. destruct (target_spec xs (rq_path rq) (rq_method rq)) as (d' & h & Hc & Ha & Hg).
    rewrite (chosen_unique _ _ _ _ Hd _ Hc). exists h. split; [exact Ha|]. intros w w1 res Hw.
    unfold dispatch. rewrite Hg. rewrite (wraps_unique _ _ _ _ (configure_chain xs h w) _ Hw).
    destruct res as [h'|]; [|reflexivity]. now destruct (h' rq w1).
  Qed.
  Lemma wraps_total ms : forall h w, exists res, wraps W ms h w res.
  Proof.
    induction ms as [|m ms IH] using rev_ind; intros h w; [eexists; apply wraps_none|].
    destruct (m h w) as [w1 [h1|]] eqn:E.
    - destruct (IH h1 w1) as [res H]. exists res. eapply wraps_more; eauto.
    - eexists. eapply wraps_throws. eauto.
  Qed.
End Proofs.

(** Middlewares that note when a request passes. *)
Inductive mark := Enter (n : nat) | Leave (n : nat).
Section Marks.
  Variable V : Type.
  Definition marking (n : nat) : middleware (list mark * V) := fun next w =>
    (w, Some (fun rq w1 =>
       let '(w2, r) := next rq (fst w1 ++ [Enter n], snd w1) in
       match r with None => (w2, None) | Some x => ((fst w2 ++ [Leave n], snd w2), Some x) end)).

  Lemma marks_wrap ns (h : handler (list mark * V)) w : exists h',
    wraps _ (map marking ns) h w (w, Some h') /\
    forall rq l v, h' rq (l, v) =
      match h rq (l ++ map Enter ns, v) with
      | (w2, None) => (w2, None)
      | ((l2, v2), Some r) => ((l2 ++ map Leave (rev ns), v2), Some r)
      end.
  Proof.
    revert h w. induction ns as [|n ns IH] using rev_ind; intros h w.
    - exists h. split; [constructor|]. intros rq l v. cbn [map rev]. rewrite app_nil_r.
      destruct (h rq (l, v)) as [[l2 v2] [r|]]; [now rewrite app_nil_r|reflexivity].
    - rewrite map_app. cbn [map]. destruct (marking n h w) as [w1 [h1|]] eqn:E; [|discriminate E].
      assert (w1 = w) by (unfold marking in E; congruence). subst w1.
      destruct (IH h1 w) as (h' & Hw & Hh). exists h'. split; [eapply wraps_more; [exact E|exact Hw]|].
      intros rq l v. rewrite Hh. rewrite map_app, app_assoc. cbn [map].
      unfold marking in E. injection E as <-. cbn [fst snd].
      destruct (h rq ((l ++ map Enter ns) ++ [Enter n], v)) as [[l2 v2] [r|]]; [|reflexivity].
      rewrite rev_app_distr. cbn [rev app map fst snd]. now rewrite <- app_assoc.
  Qed.
End Marks.
