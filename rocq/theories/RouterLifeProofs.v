(** Proofs about the handlers the router hands out (C96). *)
From Verif Require Import Base BaseLemmas Http FileSys Files SpecFiles FilesProofs FilesServe Router SpecRouter RouterProofs RouterLife SpecRouterLife.

Section Proofs.
  Variable W : Type.
  Variable files : W -> os.
  Notation op := (op W).
  Notation life := (life W).
  Notation step := (step W).
  Notation lives := (lives W).

  Lemma lives_app xs ys : forall l l', lives (xs ++ ys) l = Ret l' -> exists l1, lives xs l = Ret l1 /\ lives ys l1 = Ret l'.
  Proof.
    induction xs as [|x xs IH]; intros l l' H; [now exists l|]. cbn [Datatypes.app RouterLife.lives] in *.
    destruct (step l x) as [l1| | |]; try discriminate. cbn [obind] in *. now apply IH.
  Qed.

  (** Strings. *)
  Lemma string_at_drop i j l : string_at i (drop_string j l) = if Nat.eqb i j then None else string_at i l.
  Proof.
    induction l as [|[k s] l IH]; cbn [drop_string filter string_at fst]; [now destruct (Nat.eqb i j)|].
    fold (drop_string j l). destruct (Nat.eqb_spec j k) as [->|N]; cbn [negb].
    - rewrite IH. destruct (Nat.eqb i k); reflexivity.
    - cbn [string_at]. rewrite IH. destruct (Nat.eqb_spec i k) as [->|]; [|reflexivity]. destruct (Nat.eqb_spec k j); [congruence|reflexivity].
  Qed.
  Lemma has_value_snoc xs x i v : has_value W (xs ++ [x]) i v <->
    (x = MakeString W i v \/ x = AssignString W i v) \/ (~ concerns W i x /\ has_value W xs i v).
  Proof.
    split.
    - intros (a & b & E & H). destruct b as [|y b _] using rev_ind.
      + left. destruct E as [E|E]; apply app_inj_tail in E as [_ E]; auto.
      + right. assert (y = x) as -> by (destruct E as [E|E]; rewrite app_comm_cons, app_assoc in E; apply app_inj_tail in E as [_ E]; auto).
        split; [apply H, in_or_app; right; now left|]. exists a, b. split.
        * destruct E as [E|E]; rewrite app_comm_cons, app_assoc in E; apply app_inj_tail in E as [-> _]; auto.
        * intros y Hy. apply H, in_or_app. now left.
    - intros [[->| ->]|[Hx (a & b & E & H)]]; [exists xs, []; split; [now left|easy]|exists xs, []; split; [now right|easy]|].
      exists a, (b ++ [x]). split; [destruct E as [-> | ->]; rewrite <- !app_assoc; auto|].
      intros y Hy. apply in_app_or in Hy as [Hy|[<-|[]]]; auto.
  Qed.
  Lemma has_value_nil i v : ~ has_value W [] i v.
  Proof. intros (a & b & [E|E] & _); destruct a; discriminate. Qed.

  Lemma statics_app xs ys : statics W (xs ++ ys) = (statics W xs + statics W ys)%nat.
  Proof. unfold statics. now rewrite filter_app, app_length. Qed.
  Lemma obtained_app xs ys : obtained W (xs ++ ys) = (obtained W xs + obtained W ys)%nat.
  Proof. unfold obtained. now rewrite filter_app, app_length. Qed.
  Lemma registered_app xs ys : registered W (xs ++ ys) = registered W xs ++ registered W ys.
  Proof. apply flat_map_app. Qed.

  Definition room (n : nat) : nat := match n with O => O | _ => (2 ^ Nat.log2_up n)%nat end.
  Lemma room_le n : (n <= room n)%nat.
  Proof. destruct n as [|n]; [easy|]. unfold room. apply Nat.log2_log2_up_spec. lia. Qed.
  Lemma room_grow n : n = room n -> Nat.max 1 (2 * room n) = room (S n).
  Proof.
    intros E. destruct n as [|n]; [reflexivity|]. change (room (S (S n))) with (2 ^ Nat.log2_up (S (S n)))%nat.
    unfold room in *. set (k := Nat.log2_up (S n)) in *. rewrite E. rewrite Nat.log2_up_succ_pow2 by lia. rewrite Nat.pow_succ_r'.
    assert (2 ^ k <> 0)%nat by (apply Nat.pow_nonzero; lia). lia.
  Qed.
  Lemma room_same n : n <> room n -> room n = room (S n).
  Proof.
    intros E. pose proof (room_le n) as L. destruct n as [|n]; [easy|]. change (room (S (S n))) with (2 ^ Nat.log2_up (S (S n)))%nat.
    unfold room in *. set (k := Nat.log2_up (S n)) in *. f_equal. symmetry. destruct (Nat.eq_dec n 0) as [->|N]; [cbn in *; lia|].
    assert (1 <= k)%nat by (apply (Nat.log2_up_le_mono 2 (S n)); lia).
    apply Nat.log2_up_unique; [lia|]. destruct (Nat.log2_up_spec (S n)) as [K1 K2]; [lia|]. fold k in K1, K2. lia.
  Qed.

  (** The state after a history. *)
  Record ok (xs : list op) (l : life) : Prop := {
    ok_string : forall i v, string_at i (l_strings W l) = Some v <-> has_value W xs i v;
    ok_router : l_router W l = configure W (registered W xs);
    ok_room : l_room W l = room (statics W xs);
    ok_handlers : length (l_handlers W l) = obtained W xs }.
  Lemma statics_registered xs : length (statics_of W (registered W xs)) = statics W xs.
  Proof.
    induction xs as [|x xs IH]; [reflexivity|]. change (registered W (x :: xs)) with (registered W ([x] ++ xs)). change (statics W (x :: xs)) with (statics W ([x] ++ xs)).
    rewrite registered_app, statics_app. unfold statics_of in *. rewrite flat_map_app, app_length, IH. f_equal. now destruct x.
  Qed.
  Lemma ok_statics xs l : ok xs l -> length (r_static W (l_router W l)) = statics W xs.
  Proof. intros H. rewrite (ok_router _ _ H). destruct (configure_parts W (registered W xs)) as [_ ->]. apply statics_registered. Qed.
  Lemma ok_new : ok [] (new_life W).
  Proof. constructor; try reflexivity. intros i v. split; [discriminate|]. intros H. now apply has_value_nil in H. Qed.
  Lemma ok_step xs l x l' : ok xs l -> step l x = Ret l' -> ok (xs ++ [x]) l'.
  Proof.
    intros H E. pose proof (ok_statics _ _ H) as Hs. destruct H as [H1 H2 H3 H4]. unfold RouterLife.step in E.
    assert (R0 : forall y, registered W [y] = [] -> configure W (registered W (xs ++ [y])) = configure W (registered W xs)) by (intros y K; now rewrite registered_app, K, app_nil_r).
    assert (S0 : forall y, statics W [y] = O -> statics W (xs ++ [y]) = statics W xs) by (intros y K; rewrite statics_app, K; lia).
    assert (O0 : forall y, obtained W [y] = O -> obtained W (xs ++ [y]) = obtained W xs) by (intros y K; rewrite obtained_app, K; lia).
    destruct x as [i s|i s|i|p m h|s|p i].
    - destruct (existsb (Nat.eqb i) (l_used W l)); [discriminate|]. injection E as <-.
      constructor; cbn [l_strings l_router l_room l_handlers]; rewrite ?R0, ?S0, ?O0 by reflexivity; auto.
      intros j v. rewrite has_value_snoc. cbn [string_at concerns]. rewrite <- H1. destruct (Nat.eqb_spec j i) as [->|N].
      + split; [intros [= ->]; auto|]. intros [[[= ->]|K]|[K _]]; [reflexivity|discriminate|congruence].
      + split; [auto|]. intros [[[= -> _]|K]|[_ K]]; [congruence|discriminate|exact K].
    - destruct (string_at i (l_strings W l)); [|discriminate]. injection E as <-.
      constructor; cbn [l_strings l_router l_room l_handlers]; rewrite ?R0, ?S0, ?O0 by reflexivity; auto.
      intros j v. rewrite has_value_snoc. cbn [string_at concerns]. rewrite string_at_drop. rewrite <- H1. destruct (Nat.eqb_spec j i) as [->|N].
      + split; [intros [= ->]; auto|]. intros [[K|[= ->]]|[K _]]; [discriminate|reflexivity|congruence].
      + split; [auto|]. intros [[K|[= -> _]]|[_ K]]; [discriminate|congruence|exact K].
    - destruct (string_at i (l_strings W l)); [|discriminate]. injection E as <-.
      constructor; cbn [l_strings l_router l_room l_handlers]; rewrite ?R0, ?S0, ?O0 by reflexivity; auto.
      intros j v. rewrite has_value_snoc. cbn [concerns]. rewrite string_at_drop. rewrite <- H1. destruct (Nat.eqb_spec j i) as [->|N].
      + split; [discriminate|]. intros [[K|K]|[K _]]; congruence.
      + split; [auto|]. intros [[K|K]|[_ K]]; [discriminate|discriminate|exact K].
    - injection E as <-. constructor; cbn [l_strings l_router l_room l_handlers]; rewrite ?S0, ?O0 by reflexivity; auto.
      + intros j v. rewrite has_value_snoc, H1. cbn [concerns]. split; [auto|]. intros [[K|K]|[_ K]]; [discriminate|discriminate|exact K].
      + rewrite registered_app. change (registered W [NewRoute W p m h]) with [AddRoute p m h]. now rewrite configure_snoc, H2.
    - assert (S1 : statics W (xs ++ [NewStatic W s]) = S (statics W xs)) by (rewrite statics_app; cbn; lia).
      assert (V : forall j v, string_at j (l_strings W l) = Some v <-> has_value W (xs ++ [NewStatic W s]) j v).
      { intros j v. rewrite has_value_snoc, H1. cbn [concerns]. split; [auto|]. intros [[K|K]|[_ K]]; [discriminate|discriminate|exact K]. }
      assert (C : add_static_handler W s (l_router W l) = configure W (registered W (xs ++ [NewStatic W s]))).
      { rewrite registered_app. change (registered W [NewStatic W s]) with [@AddStatic W s]. now rewrite configure_snoc, H2. }
      rewrite Hs, H3 in E. destruct (Nat.eqb_spec (statics W xs) (room (statics W xs))) as [K|K]; injection E as <-;
        constructor; cbn [l_strings l_router l_room l_handlers]; rewrite ?S1, ?O0 by reflexivity; auto.
      + now apply room_grow.
      + now apply room_same.
    - destruct (get_closure W l p i) as [c| | |]; try discriminate. injection E as <-.
      constructor; cbn [l_strings l_router l_room l_handlers]; rewrite ?R0, ?S0 by reflexivity; auto.
      + intros j v. rewrite has_value_snoc, H1. cbn [concerns]. split; [auto|]. intros [[K|K]|[_ K]]; [discriminate|discriminate|exact K].
      + rewrite app_length, obtained_app, H4. reflexivity.
  Qed.
  Lemma ok_lives ys : forall xs l l', ok xs l -> lives ys l = Ret l' -> ok (xs ++ ys) l'.
  Proof.
    induction ys as [|y ys IH]; intros xs l l' H E; cbn [RouterLife.lives] in E.
    - injection E as <-. now rewrite app_nil_r.
    - destruct (step l y) as [l1| | |] eqn:E1; try discriminate. cbn [obind] in E. replace (xs ++ y :: ys) with ((xs ++ [y]) ++ ys) by (now rewrite <- app_assoc).
      eapply IH; [|exact E]. eapply ok_step; eauto.
  Qed.

  (** What stays as it is. *)
  Lemma lives_array ys : forall xs l l', ok xs l -> lives ys l = Ret l' ->
    (l_array W l <= l_array W l')%nat /\ (l_array W l' = l_array W l <-> (statics W xs + statics W ys <= l_room W l)%nat).
  Proof.
    induction ys as [|y ys IH]; intros xs l l' H E; cbn [RouterLife.lives] in E.
    - injection E as <-. split; [lia|]. split; [|auto]. intros _. rewrite (ok_room _ _ H). pose proof (room_le (statics W xs)). cbn. lia.
    - destruct (step l y) as [l1| | |] eqn:E1; try discriminate. cbn [obind] in E. pose proof (ok_step _ _ _ _ H E1) as H1.
      destruct (IH _ _ _ H1 E) as [I1 I2]. pose proof (ok_statics _ _ H) as Hs. rewrite statics_app in I2. change (statics W (y :: ys)) with (statics W ([y] ++ ys)). rewrite statics_app, Nat.add_assoc.
      assert (D : (l_array W l1 = l_array W l /\ l_room W l1 = l_room W l) \/ (l_array W l1 = S (l_array W l) /\ statics W [y] = 1%nat /\ statics W xs = l_room W l)).
      { clear - E1 Hs. destruct y as [i s|i s|i|p m h|s|p i]; cbn [RouterLife.step] in E1.
        - destruct (existsb _ _); [discriminate|]. injection E1 as <-. auto.
        - destruct (string_at _ _); [|discriminate]. injection E1 as <-. auto.
        - destruct (string_at _ _); [|discriminate]. injection E1 as <-. auto.
        - injection E1 as <-. auto.
        - rewrite Hs in E1. destruct (Nat.eqb_spec (statics W xs) (l_room W l)) as [K|K]; injection E1 as <-; auto.
        - destruct (get_closure W l p i); try discriminate. injection E1 as <-. auto. }
      destruct D as [[D1 D2]|(D1 & D2 & D3)].
      + rewrite D1, D2 in *. split; [exact I1|exact I2].
      + split; [lia|]. split; [lia|]. intros K. exfalso. lia.
  Qed.
  Lemma stays_room n m : stays n m <-> (n + m <= room n)%nat.
  Proof.
    unfold stays. pose proof (room_le n). destruct n as [|n]; cbn [room] in *; [lia|]. split; [|lia]. intros [->|[_ K]]; [|exact K]. unfold room in *. lia.
  Qed.
  Lemma lives_static ys : forall xs l l' k s, ok xs l -> lives ys l = Ret l' ->
    nth_error (r_static W (l_router W l)) k = Some s -> nth_error (r_static W (l_router W l')) k = Some s.
  Proof.
    intros xs l l' k s H E K. pose proof (ok_lives _ _ _ _ H E) as H'. rewrite (ok_router _ _ H) in K. rewrite (ok_router _ _ H').
    destruct (configure_parts W (registered W xs)) as [_ P1]. destruct (configure_parts W (registered W (xs ++ ys))) as [_ P2]. rewrite P1 in K. rewrite P2.
    rewrite registered_app. unfold statics_of in *. rewrite flat_map_app, nth_error_app1; [exact K|]. apply nth_error_Some. congruence.
  Qed.
  Lemma step_handlers l x l' k c : step l x = Ret l' -> nth_error (l_handlers W l) k = Some c -> nth_error (l_handlers W l') k = Some c.
  Proof.
    intros E H. destruct x as [i s|i s|i|p m h|s|p i]; cbn [RouterLife.step] in E.
    - destruct (existsb _ _); [discriminate|]. now injection E as <-.
    - destruct (string_at _ _); [|discriminate]. now injection E as <-.
    - destruct (string_at _ _); [|discriminate]. now injection E as <-.
    - now injection E as <-.
    - destruct (Nat.eqb _ _); now injection E as <-.
    - destruct (get_closure W l p i); try discriminate. injection E as <-. cbn [l_handlers]. rewrite nth_error_app1; [exact H|]. apply nth_error_Some. congruence.
  Qed.
  Lemma lives_handlers xs : forall l l' k c, lives xs l = Ret l' -> nth_error (l_handlers W l) k = Some c -> nth_error (l_handlers W l') k = Some c.
  Proof.
    induction xs as [|x xs IH]; intros l l' k c E H; cbn [RouterLife.lives] in E; [now injection E as <-|].
    destruct (step l x) as [l1| | |] eqn:E1; try discriminate. cbn [obind] in E. eapply IH; [exact E|]. eapply step_handlers; eauto.
  Qed.

  (** Which lambda it is. *)
  Lemma find_element_spec ys p i arr : forall idx t,
    (find_element W (statics_of W ys) arr idx p i t = t /\ forall x, In x ys -> ~ is_prefix_of W p x) \/
    (exists a b s rest j, ys = a ++ AddStatic s :: b /\ p = st_prefix s ++ rest /\ (forall x, In x b -> ~ is_prefix_of W p x) /\
       nth_error (statics_of W ys) j = Some s /\ find_element W (statics_of W ys) arr idx p i t = Lambda W p i arr (idx + j)).
  Proof.
    induction ys as [|x ys IH]; intros idx t; [left; now split|].
    assert (D : (exists s, x = AddStatic s) \/ (statics_of W (x :: ys) = statics_of W ys /\ ~ is_prefix_of W p x)).
    { destruct x as [p' m' h|s|mw]; [right|left; now exists s|right]; (split; [reflexivity|intros (? & ? & K & _); discriminate]). }
    destruct D as [[s ->]|[D1 D2]].
    - change (statics_of W (AddStatic s :: ys)) with (s :: statics_of W ys). cbn [find_element].
      set (t' := if static_matches s p then _ else t). destruct (IH (S idx) t') as [[E H]|(a & b & s' & rest & j & -> & Ep & Hb & Hj & E)].
      + rewrite E. subst t'. destruct (static_matches s p) eqn:M.
        * right. apply matches_prefix in M as [rest ->]. exists [], ys, s, rest, O. rewrite Nat.add_0_r. now repeat split.
        * left. split; [auto|]. intros x [<-|Hx]; [|auto]. intros (s' & rest & K & ->). injection K as <-.
          assert (static_matches s (st_prefix s ++ rest) = true) by (apply matches_prefix; eauto). congruence.
      + right. exists (AddStatic s :: a), b, s', rest, (S j). rewrite E, Nat.add_succ_r. now repeat split.
    - rewrite D1. destruct (IH idx t) as [[E H]|(a & b & s' & rest & j & -> & Ep & Hb & Hj & E)].
      + left. split; [exact E|]. intros y [<-|Hy]; auto.
      + right. exists (x :: a), b, s', rest, j. now repeat split.
  Qed.

  Lemma called a p i b l rq w :
    lives (a ++ Obtain W p i :: b) (new_life W) = Ret l ->
    exists m, has_value W a i m /\ forall d, chosen W (registered W a) p m d ->
      match d with
      | ToRoute _ h => call W files l (obtained W a) rq w = Ret (h rq w)
      | ToNothing _ => call W files l (obtained W a) rq w = Ret (w, Some (Response 404 [] []))
      | ToStatic _ s =>
        (forall v, has_value W (a ++ Obtain W p i :: b) i v -> stays (statics W a) (statics W b) ->
           exists r, static_handle (files w) s p (bytes_eqb v (str "HEAD")) = Ret r /\ call W files l (obtained W a) rq w = Ret (w, Some r)) /\
        ((forall v, ~ has_value W (a ++ Obtain W p i :: b) i v) \/ ~ stays (statics W a) (statics W b) -> call W files l (obtained W a) rq w = Undef)
      end.
  Proof.
    intros E. pose proof (ok_lives _ _ _ _ ok_new E) as Hl. cbn [Datatypes.app] in Hl.
    apply lives_app in E as (l1 & E1 & E2). pose proof (ok_lives _ _ _ _ ok_new E1) as H1. cbn [Datatypes.app] in H1.
    cbn [RouterLife.lives RouterLife.step] in E2. unfold get_closure in E2. destruct (string_at i (l_strings W l1)) as [m|] eqn:Em; [|discriminate].
    exists m. split; [now apply (ok_string _ _ H1)|]. intros d Hd. cbn [obind] in E2.
    set (c := match find_route W (r_routes W (l_router W l1)) p m with Some h => Copied W h | None => _ end) in E2.
    set (l2 := Life _ _ _ _ _ _ _) in E2.
    assert (Hn : nth_error (l_handlers W l) (obtained W a) = Some c).
    { eapply lives_handlers; [exact E2|]. subst l2. cbn [l_handlers]. rewrite nth_error_app2 by (rewrite (ok_handlers _ _ H1); lia). now rewrite (ok_handlers _ _ H1), Nat.sub_diag. }
    unfold call. rewrite Hn.
    assert (H2 : ok (a ++ [Obtain W p i]) l2) by (apply (ok_step _ l1); [exact H1|]; cbn [RouterLife.step]; unfold get_closure; rewrite Em; reflexivity).
    assert (S2 : statics W (a ++ [Obtain W p i]) = statics W a) by (rewrite statics_app; cbn; lia).
    destruct (lives_array _ _ _ _ H2 E2) as [_ A]. rewrite S2 in A. rewrite (ok_room _ _ H2), S2, <- stays_room in A.
    change (l_array W l2) with (l_array W l1) in A.
    subst c. destruct (configure_parts W (registered W a)) as [P1 P2]. rewrite <- (ok_router _ _ H1) in P1, P2. rewrite P1, P2 in *.
    pose proof (find_route_spec W (registered W a) p m) as HR. destruct (find_route W (routes_of W (registered W a)) p m) as [h|].
    { destruct HR as (xa & xb & Ex & Hx). assert (d = ToRoute W h) as -> by (eapply chosen_unique; [exact Hd|econstructor; eauto]). reflexivity. }
    destruct (bytes_eqb m (str "GET") || bytes_eqb m (str "HEAD")) eqn:EM.
    - assert (HM : m = str "GET" \/ m = str "HEAD") by (apply orb_true_iff in EM as [EM|EM]; apply bytes_eqb_eq in EM; auto).
      destruct (find_element_spec (registered W a) p i (l_array W l1) 0 (Copied W (default_handler W))) as [[Ef H]|(xa & xb & s & rest & j & Ex & Ep & Hx & Hj & Ef)]; rewrite Ef.
      + assert (d = ToNothing W) as -> by (eapply chosen_unique; [exact Hd|apply chosen_nothing; auto]). reflexivity.
      + assert (d = ToStatic W s) as -> by (eapply chosen_unique; [exact Hd|econstructor; eauto]). cbn [call_closure Nat.add].
        assert (Hj' : nth_error (r_static W (l_router W l)) j = Some s) by (eapply lives_static; [exact H2|exact E2|]; cbn [l_router l2]; subst l2; cbn [l_router]; now rewrite P2).
        assert (M : static_matches s p = true) by (apply matches_prefix; eauto). destruct (asks_some s p M) as [rel Ha].
        split.
        * intros v Hv St. apply A in St. rewrite St, Nat.eqb_refl, Hj'. apply (ok_string _ _ Hl) in Hv. rewrite Hv. rewrite (handle_eq _ s p _ rel Ha). eexists. split; reflexivity.
        * intros [N|N].
          -- rewrite Hj'. destruct (string_at i (l_strings W l)) as [v|] eqn:Ev; [|now destruct (Nat.eqb _ _)]. exfalso. apply (N v). now apply (ok_string _ _ Hl).
          -- destruct (Nat.eqb_spec (l_array W l1) (l_array W l)) as [K|K]; [|reflexivity]. exfalso. apply N, A. now symmetry.
    - apply orb_false_iff in EM as [EM1 EM2]. apply bytes_eqb_neq in EM1, EM2.
      assert (d = ToNothing W) as -> by (eapply chosen_unique; [exact Hd|apply chosen_nothing; auto]). reflexivity.
  Qed.
End Proofs.
