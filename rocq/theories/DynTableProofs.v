From Verif Require Import Base BaseLemmas SpecTable DynTable.

Lemma entry_size_pos h : 32 <= entry_size h.
Proof. unfold entry_size. pose proof (lenZ_nonneg (h_name h)). pose proof (lenZ_nonneg (h_value h)). lia. Qed.

Lemma table_size_cons h l : table_size (h :: l) = entry_size h + table_size l.
Proof. reflexivity. Qed.
Lemma table_size_nil : table_size [] = 0.
Proof. reflexivity. Qed.
Lemma table_size_app a b : table_size (a ++ b) = table_size a + table_size b.
Proof. induction a as [|h a IH]; [reflexivity|]. cbn [app]. rewrite !table_size_cons. lia. Qed.
Lemma table_size_nonneg l : 0 <= table_size l.
Proof. induction l as [|h l IH]; [cbn; lia|]. rewrite table_size_cons. pose proof (entry_size_pos h). lia. Qed.
Lemma table_size_count l : 32 * lenZ l <= table_size l.
Proof.
  induction l as [|h l IH]; [cbn; lia|]. rewrite table_size_cons, lenZ_cons.
  pose proof (entry_size_pos h). lia.
Qed.

(** ** [fit] *)
Lemma fit_prefix l : forall max, exists e, l = fit max l ++ e.
Proof.
  induction l as [|h l IH]; intros max; [now exists []|].
  cbn [fit]. destruct (entry_size h <=? max); [|now exists (h :: l)].
  destruct (IH (max - entry_size h)) as (e & E). exists e. cbn [app]. now rewrite <- E.
Qed.

Lemma fit_size l : forall max, 0 <= max -> table_size (fit max l) <= max.
Proof.
  induction l as [|h l IH]; intros max H; [cbn; lia|].
  cbn [fit]. destruct (entry_size h <=? max) eqn:E; [|cbn; lia].
  rewrite table_size_cons. specialize (IH (max - entry_size h)). lia.
Qed.

Lemma fit_longest l : forall max k e, l = k ++ e -> table_size k <= max ->
  (length k <= length (fit max l))%nat.
Proof.
  induction l as [|h l IH]; intros max k e E H.
  - symmetry in E. apply app_eq_nil in E as [-> _]. cbn. lia.
  - destruct k as [|h' k]; [cbn; lia|]. cbn in E. injection E as <- E.
    rewrite table_size_cons in H. pose proof (table_size_nonneg k).
    cbn [fit]. replace (entry_size h <=? max) with true by lia.
    cbn [length]. apply le_n_S. eapply IH; [exact E|lia].
Qed.

Lemma fit_longest_fitting max l : 0 <= max -> longest_fitting max l (fit max l).
Proof. intros H. repeat split; [apply fit_prefix|now apply fit_size|apply fit_longest]. Qed.

Lemma longest_fitting_unique max l k : longest_fitting max l k -> 0 <= max -> k = fit max l.
Proof.
  intros ((e & E) & Hs & Hl) Hm.
  destruct (fit_prefix l max) as (e' & E').
  assert (length k = length (fit max l)).
  { apply Nat.le_antisymm; [eapply fit_longest; eauto|].
    eapply Hl; [exact E'|now apply fit_size]. }
  rewrite E in E' at 1. now apply app_inj_len in E' as [-> _].
Qed.

Lemma fit_all l max : table_size l <= max -> fit max l = l.
Proof.
  revert max. induction l as [|h l IH]; intros max H; [reflexivity|].
  rewrite table_size_cons in H. pose proof (table_size_nonneg l).
  cbn [fit]. replace (entry_size h <=? max) with true by lia. now rewrite IH by lia.
Qed.

Lemma fit_snoc l h : forall max, 0 <= max -> table_size (l ++ [h]) > max ->
  fit max (l ++ [h]) = fit max l.
Proof.
  induction l as [|x l IH]; intros max Hm H; cbn [app] in *.
  - rewrite table_size_cons, table_size_nil in H. cbn [fit].
    replace (entry_size h <=? max) with false by lia. reflexivity.
  - rewrite table_size_cons in H. cbn [fit]. destruct (entry_size x <=? max) eqn:E; [|reflexivity].
    rewrite IH by lia. reflexivity.
Qed.

Lemma fit_nil_neg l : forall max, max < 32 -> fit max l = [].
Proof.
  intros max H. destruct l as [|h l]; [reflexivity|]. cbn [fit].
  pose proof (entry_size_pos h). replace (entry_size h <=? max) with false by lia. reflexivity.
Qed.

(** A smaller table with a smaller limit stays a prefix. *)
Lemma fit_mono l1 : forall l2 m1 m2, m1 <= m2 ->
  (exists e, l2 = l1 ++ e) -> exists e, fit m2 l2 = fit m1 l1 ++ e.
Proof.
  induction l1 as [|h l1 IH]; intros l2 m1 m2 Hm (e & E).
  - eexists. reflexivity.
  - subst l2. cbn [app fit]. destruct (entry_size h <=? m1) eqn:E1.
    + replace (entry_size h <=? m2) with true by lia.
      destruct (IH (l1 ++ e) (m1 - entry_size h) (m2 - entry_size h)) as (e' & E'); [lia|eauto|].
      exists e'. rewrite E'. reflexivity.
    + eexists. reflexivity.
Qed.

(** ** The C++ loops compute [fit] *)
Definition header_sane (h : header) : Prop := entry_size h < 2 ^ 63.

Lemma entry_size_eq h : header_sane h -> get_header_entry_size h = entry_size h.
Proof.
  unfold header_sane, get_header_entry_size, entry_size, u64. intros H.
  pose proof (lenZ_nonneg (h_name h)). pose proof (lenZ_nonneg (h_value h)).
  change (2 ^ 63) with 9223372036854775808 in H.
  rewrite (Z.mod_small (lenZ (h_name h) + lenZ (h_value h))) by lia.
  apply Z.mod_small. lia.
Qed.

Lemma table_size_rev l : table_size (rev l) = table_size l.
Proof.
  induction l as [|h l IH]; [reflexivity|]. cbn [rev]. rewrite table_size_app, !table_size_cons, table_size_nil. lia.
Qed.

Lemma evict_spec extra max bf : 0 <= extra -> extra <= max -> max < 2 ^ 63 ->
  table_size bf < 2 ^ 63 ->
  evict extra max bf (table_size bf) =
    Ret (rev (fit (max - extra) (rev bf)), table_size (fit (max - extra) (rev bf))).
Proof.
  intros H0 H1 H2. change (2 ^ 63) with 9223372036854775808.
  change (2 ^ 63) with 9223372036854775808 in H2.
  induction bf as [|h bf IH]; intros H3.
  - cbn [evict]. change (table_size []) with 0. replace (u64 (0 + extra) >? max) with false; [reflexivity|].
    unfold u64. lia.
  - cbn [evict]. rewrite table_size_cons in *. pose proof (entry_size_pos h).
    pose proof (table_size_nonneg bf).
    replace (u64 (entry_size h + table_size bf + extra)) with (entry_size h + table_size bf + extra)
      by (unfold u64; lia).
    destruct (_ >? max) eqn:E.
    + rewrite entry_size_eq by (unfold header_sane; change (2 ^ 63) with 9223372036854775808; lia).
      replace (u64 (entry_size h + table_size bf - entry_size h)) with (table_size bf)
        by (unfold u64; lia).
      rewrite IH by lia. cbn [rev]. rewrite fit_snoc; [reflexivity|lia|].
      rewrite table_size_app, table_size_rev, table_size_cons, table_size_nil. lia.
    + rewrite fit_all.
      * rewrite rev_involutive, table_size_rev. reflexivity.
      * rewrite table_size_rev, table_size_cons. lia.
Qed.

(** Representation invariant: [t] holds the entries [l] with maximum [m]. *)
Definition dt_rep (t : dyn_table) (l : list header) (m : Z) : Prop :=
  dt_table t = l /\ dt_size t = table_size l /\ dt_max t = m /\
  0 <= m < 2 ^ 63 /\ table_size l <= m.

Lemma dt_init_rep m : 0 <= m < 2 ^ 63 -> dt_rep (dt_init m) [] m.
Proof. intros H. repeat split; try (cbn; lia). Qed.

Lemma dt_insert_rep t l m h : dt_rep t l m -> header_sane h ->
  exists t', dt_insert t h = Ret t' /\ dt_rep t' (fit m (h :: l)) m.
Proof.
  intros (<- & Hs & <- & Hm & Hfit) Hh. unfold dt_insert.
  rewrite entry_size_eq by auto. pose proof (entry_size_pos h).
  cbn [fit]. destruct (entry_size h >? dt_max t) eqn:E.
  - replace (entry_size h <=? dt_max t) with false by lia.
    eexists. split; [reflexivity|]. repeat split; try lia. cbn. lia.
  - replace (entry_size h <=? dt_max t) with true by lia.
    rewrite Hs, <- (table_size_rev (dt_table t)), evict_spec; try lia.
    2:{ rewrite table_size_rev. lia. }
    cbn [obind]. rewrite rev_involutive, rev_involutive. eexists. split; [reflexivity|].
    pose proof (fit_size (dt_table t) (dt_max t - entry_size h)).
    pose proof (table_size_nonneg (fit (dt_max t - entry_size h) (dt_table t))).
    change (2 ^ 63) with 9223372036854775808 in Hm.
    repeat split; cbn [dt_table dt_size dt_max]; try lia.
    + rewrite table_size_cons. unfold u64. lia.
    + rewrite table_size_cons. lia.
Qed.

Lemma dt_set_max_rep t l m n : dt_rep t l m -> 0 <= n < 2 ^ 63 ->
  exists t', dt_set_max t n = Ret t' /\ dt_rep t' (fit n l) n.
Proof.
  intros (<- & Hs & <- & Hm & Hfit) Hn. unfold dt_set_max.
  rewrite Hs, <- (table_size_rev (dt_table t)), evict_spec; try lia.
  2:{ rewrite table_size_rev. lia. }
  cbn [obind]. rewrite !rev_involutive, Z.sub_0_r. eexists. split; [reflexivity|].
  pose proof (fit_size (dt_table t) n). repeat split; cbn [dt_table dt_size dt_max]; try lia.
Qed.

(** ** Histories *)
Inductive table_op := OpInsert (h : header) | OpResize (n : Z).
Definition run_op (t : dyn_table) (o : table_op) : out dyn_table :=
  match o with OpInsert h => dt_insert t h | OpResize n => dt_set_max t n end.
Fixpoint run_ops (t : dyn_table) (os : list table_op) : out dyn_table :=
  match os with [] => Ret t | o :: os' => let! t' := run_op t o in run_ops t' os' end.
Definition op_ok (o : table_op) : Prop :=
  match o with OpInsert h => header_sane h | OpResize n => 0 <= n < 2 ^ 63 end.

Lemma run_op_rep t l m o : dt_rep t l m -> op_ok o ->
  exists t', run_op t o = Ret t' /\
    match o with
    | OpInsert h => dt_rep t' (fit m (h :: l)) m
    | OpResize n => dt_rep t' (fit n l) n
    end.
Proof.
  destruct o as [h|n]; cbn [op_ok run_op]; intros H Ho;
    [now apply dt_insert_rep|eapply dt_set_max_rep; eauto].
Qed.

Lemma run_ops_rep os : Forall op_ok os -> forall t l m, dt_rep t l m ->
  exists t' l' m', run_ops t os = Ret t' /\ dt_rep t' l' m'.
Proof.
  induction 1 as [|o os Ho _ IH]; intros t l m H.
  - eexists _, _, _. split; [reflexivity|exact H].
  - cbn [run_ops]. destruct (run_op_rep t l m o H Ho) as (t1 & -> & H1). cbn [obind].
    destruct o; eapply IH; exact H1.
Qed.

Lemma run_ops_accounting m os : 0 <= m < 2 ^ 63 -> Forall op_ok os ->
  exists t, run_ops (dt_init m) os = Ret t /\
    dt_size t = table_size (dt_table t) /\ dt_size t <= dt_max t.
Proof.
  intros Hm H. destruct (run_ops_rep os H _ _ _ (dt_init_rep m Hm)) as (t & l & m' & E & (<- & Hs & <- & _ & Hf)).
  exists t. repeat split; auto. lia.
Qed.

(** Reachable tables, for the other statements. *)
Lemma run_ops_reachable m os t : 0 <= m < 2 ^ 63 -> Forall op_ok os ->
  run_ops (dt_init m) os = Ret t -> dt_rep t (dt_table t) (dt_max t).
Proof.
  intros Hm H E. destruct (run_ops_rep os H _ _ _ (dt_init_rep m Hm)) as (t' & l & m' & E' & R).
  rewrite E in E'. injection E' as <-. pose proof R as (<- & _ & <- & _). exact R.
Qed.

Lemma insert_longest m os t h : 0 <= m < 2 ^ 63 -> Forall op_ok os ->
  run_ops (dt_init m) os = Ret t -> header_sane h ->
  exists t', dt_insert t h = Ret t' /\ dt_max t' = dt_max t /\
    longest_fitting (dt_max t) (h :: dt_table t) (dt_table t').
Proof.
  intros Hm H E Hh. pose proof (run_ops_reachable m os t Hm H E) as R.
  destruct (dt_insert_rep _ _ _ _ R Hh) as (t' & -> & (E1 & _ & E2 & Hb & _)).
  exists t'. rewrite E1, E2. repeat split; auto; apply fit_longest_fitting; lia.
Qed.

Lemma resize_longest m os t n : 0 <= m < 2 ^ 63 -> Forall op_ok os ->
  run_ops (dt_init m) os = Ret t -> 0 <= n < 2 ^ 63 ->
  exists t', dt_set_max t n = Ret t' /\ dt_max t' = n /\
    longest_fitting n (dt_table t) (dt_table t').
Proof.
  intros Hm H E Hn. pose proof (run_ops_reachable m os t Hm H E) as R.
  destruct (dt_set_max_rep _ _ _ _ R Hn) as (t' & -> & (E1 & _ & E2 & Hb & _)).
  exists t'. rewrite E1, E2. repeat split; auto; apply fit_longest_fitting; lia.
Qed.

(** ** Lookup *)
Lemma find_index_some p l : forall i, find_index p l = Some i ->
  0 <= i /\ exists h, nth_error l (Z.to_nat i) = Some h /\ p h = true /\
  forall j h', (j < Z.to_nat i)%nat -> nth_error l j = Some h' -> p h' = false.
Proof.
  induction l as [|x l IH]; intros i H; [easy|]. cbn [find_index] in H.
  destruct (p x) eqn:E.
  - injection H as <-. split; [lia|]. exists x. repeat split; auto. intros j h' Hj. lia.
  - destruct (find_index p l) as [k|]; [|easy]. injection H as <-.
    destruct (IH k eq_refl) as (Hk & h & Hn & Hp & Hmin). split; [lia|]. exists h.
    replace (Z.to_nat (k + 1)) with (S (Z.to_nat k)) by lia. repeat split; auto.
    intros [|j] h' Hj Hn'; cbn in Hn'; [congruence|]. eapply Hmin; [|eauto]. lia.
Qed.

Lemma find_index_none p l : find_index p l = None <-> Forall (fun h => p h = false) l.
Proof.
  induction l as [|x l IH]; cbn [find_index]; [split; constructor|].
  rewrite Forall_cons_iff, <- IH. destruct (p x); [easy|].
  destruct (find_index p l); easy.
Qed.

Lemma dt_find_spec t h :
  match dt_find t h with
  | Some i => 0 <= i /\ nth_error (dt_table t) (Z.to_nat i) = Some h /\
      forall j, (j < Z.to_nat i)%nat -> nth_error (dt_table t) j <> Some h
  | None => ~ In h (dt_table t)
  end.
Proof.
  unfold dt_find.
  assert (P : forall x, bytes_eqb (h_name h) (h_name x) && bytes_eqb (h_value h) (h_value x) = true
     <-> x = h).
  { intros x. change (header_eqb h x = true <-> x = h). rewrite header_eqb_eq. split; congruence. }
  destruct (find_index _ _) as [i|] eqn:E.
  - apply find_index_some in E as (Hi & x & Hn & Hp & Hmin). apply P in Hp as ->.
    repeat split; auto. intros j Hj Hj'. specialize (Hmin _ _ Hj Hj').
    assert (h = h) as Q by auto. apply P in Q. congruence.
  - apply find_index_none in E. rewrite Forall_forall in E. intros Hin. specialize (E _ Hin).
    assert (h = h) as Q by auto. apply P in Q. congruence.
Qed.

Lemma dt_find_name_spec t n :
  match dt_find_name t n with
  | Some i => 0 <= i /\ (exists h, nth_error (dt_table t) (Z.to_nat i) = Some h /\ h_name h = n) /\
      forall j h, (j < Z.to_nat i)%nat -> nth_error (dt_table t) j = Some h -> h_name h <> n
  | None => forall h, In h (dt_table t) -> h_name h <> n
  end.
Proof.
  unfold dt_find_name. destruct (find_index _ _) as [i|] eqn:E.
  - apply find_index_some in E as (Hi & x & Hn & Hp & Hmin). apply bytes_eqb_eq in Hp. subst n.
    repeat split; eauto. intros j h Hj Hj' Eq. specialize (Hmin _ _ Hj Hj').
    apply bytes_eqb_neq in Hmin. congruence.
  - apply find_index_none in E. rewrite Forall_forall in E. intros h Hin Eq. specialize (E _ Hin).
    apply bytes_eqb_neq in E. congruence.
Qed.

Lemma dt_get_spec t i : 0 <= i < dt_count t ->
  exists h, dt_get t i = Ret h /\ nth_error (dt_table t) (Z.to_nat i) = Some h.
Proof.
  intros H. unfold dt_get. replace ((0 <=? i) && (i <? dt_count t)) with true by lia.
  destruct (nth_error (dt_table t) (Z.to_nat i)) eqn:E; [eauto|].
  apply nth_error_None in E. unfold dt_count, lenZ in H. lia.
Qed.
