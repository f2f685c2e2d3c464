(** Proofs about file serving. *)
From Verif Require Import Base BaseLemmas Http FileSys Files SpecFiles.

(** ** Path strings *)
Definition comp (c : bytes) : Prop := c <> [] /\ ~ In SLASH c.
Definition tail_ok (ns t : list bytes) : Prop := t = [] \/ (t = [[]] /\ ns <> []).
Definition clean (cs : list bytes) : Prop := exists ns t, cs = ns ++ t /\ Forall comp ns /\ tail_ok ns t.

Lemma split_ne s : split s <> [].
Proof. destruct s as [|c r]; [easy|]. cbn [split]. destruct (c =? SLASH); [easy|]. now destruct (split r). Qed.
Lemma split_cons c r : c <> SLASH -> split (c :: r) = (c :: hd [] (split r)) :: tl (split r).
Proof.
  intros H. cbn [split]. destruct (Z.eqb_spec c SLASH); [congruence|].
  pose proof (split_ne r). now destruct (split r).
Qed.
Lemma split_app c s : ~ In SLASH c -> split (c ++ SLASH :: s) = c :: split s.
Proof.
  induction c as [|x c IH]; intros H; [reflexivity|].
  cbn [app]. rewrite split_cons by (intros ->; apply H; now left). rewrite IH by (intros K; apply H; now right). reflexivity.
Qed.
Lemma split_plain c : ~ In SLASH c -> split c = [c].
Proof.
  induction c as [|x c IH]; intros H; [reflexivity|].
  rewrite split_cons by (intros ->; apply H; now left). now rewrite IH by (intros K; apply H; now right).
Qed.
Lemma split_parts s : Forall (fun c => ~ In SLASH c) (split s).
Proof.
  induction s as [|c r IH]; [repeat constructor; easy|]. cbn [split]. destruct (Z.eqb_spec c SLASH) as [E|E].
  - constructor; [easy|auto].
  - destruct (split r) as [|p ps]; constructor; auto.
    + intros [K|[]]. congruence.
    + inversion IH; subst. intros [K|K]; [congruence|auto].
    + now inversion IH.
Qed.
Lemma split_zero s : ~ In 0 s -> Forall (fun c => ~ In 0 c) (split s).
Proof.
  induction s as [|c r IH]; intros H; [repeat constructor; easy|].
  assert (H0 : c <> 0) by (intros ->; apply H; now left).
  specialize (IH ltac:(intros K; apply H; now right)). cbn [split]. destruct (c =? SLASH); [constructor; [easy|auto]|].
  destruct (split r) as [|p ps]; constructor; auto.
  - intros [K|[]]. congruence.
  - inversion IH; subst. intros [K|K]; [congruence|auto].
  - now inversion IH.
Qed.

Lemma elements_clean s : clean (elements s).
Proof.
  unfold elements. set (ns := filter _ _).
  assert (H : Forall comp ns).
  { apply Forall_forall. intros c Hc. apply filter_In in Hc as [H1 H2].
    pose proof (split_parts s) as Hp. rewrite Forall_forall in Hp. split; [destruct c; easy|auto]. }
  destruct (null (last (split s) []) && negb (null ns)) eqn:E.
  - exists ns, [[]]. split; [auto|]. split; [auto|]. right. split; [auto|].
    apply andb_true_iff in E as [_ E]. now destruct ns.
  - exists ns, []. rewrite app_nil_r. split; [auto|]. split; [auto|now left].
Qed.
Lemma elements_zero s : ~ In 0 s -> Forall (fun c => ~ In 0 c) (elements s).
Proof.
  intros H. unfold elements. assert (Forall (fun c => ~ In 0 c) (filter (fun c => negb (null c)) (split s))).
  { apply Forall_forall. intros c Hc. apply filter_In in Hc as [H1 _].
    pose proof (split_zero s H) as Hp. rewrite Forall_forall in Hp. auto. }
  destruct (_ && _); auto. apply Forall_app. split; auto.
Qed.

Definition joined (cs : list bytes) : bytes := flat_map (fun c => SLASH :: c) cs.
Lemma split_joined cs : Forall (fun c => ~ In SLASH c) cs -> cs <> [] -> split (joined cs) = [] :: cs.
Proof.
  intros H Hne. destruct cs as [|c cs]; [easy|]. clear Hne. cbn [joined flat_map]. change ((SLASH :: c) ++ flat_map (fun c0 => SLASH :: c0) cs) with (SLASH :: c ++ joined cs).
  change (split (SLASH :: c ++ joined cs)) with ([] :: split (c ++ joined cs)). f_equal.
  revert c H. induction cs as [|d cs IH]; intros c H; apply Forall_cons_iff in H as [H1 H2].
  - cbn [joined flat_map]. rewrite app_nil_r. now apply split_plain.
  - change (joined (d :: cs)) with (SLASH :: d ++ joined cs). rewrite split_app by auto. f_equal. apply IH. exact H2.
Qed.
Lemma elements_string cs : clean cs -> elements (path_string cs) = cs.
Proof.
  intros (ns & t & -> & Hn & Ht). unfold path_string. destruct (ns ++ t) as [|c0 cs0] eqn:E; [reflexivity|].
  rewrite <- E. fold (joined (ns ++ t)). unfold elements.
  assert (Hs : Forall (fun c => ~ In SLASH c) (ns ++ t)).
  { apply Forall_app. split; [eapply Forall_impl; [|exact Hn]; intros c [_ H]; exact H|].
    destruct Ht as [->|[-> _]]; [constructor|constructor; [easy|constructor]]. }
  rewrite split_joined by (auto; congruence).
  assert (Hf : filter (fun c => negb (null c)) ns = ns).
  { clear -Hn. induction Hn as [|c ns [Hc _] _ IH]; [reflexivity|]. cbn [filter]. destruct c; [easy|]. cbn. now rewrite IH. }
  set (f := fun c => negb (null c)) in *. change (filter f ([] :: ns ++ t)) with (filter f (ns ++ t)). rewrite filter_app.
  unfold bytes in *. rewrite Hf.
  destruct Ht as [->|[-> Hne]].
  - cbn [filter]. rewrite !app_nil_r in *.
    assert (null (last ([] :: ns) []) = false).
    { destruct ns as [|n ns] using rev_ind; [easy|]. change (last ([] :: ns ++ [n]) []) with (last (([] :: ns) ++ [n]) []).
      rewrite last_last. apply Forall_app in Hn as [_ Hn]. apply Forall_cons_iff in Hn as [[Hn _] _]. now destruct n. }
    now rewrite H.
  - change (filter f [[]]) with (@nil bytes). rewrite app_nil_r. change (last ([] :: ns ++ [[]]) []) with (last (([] :: ns) ++ [[]]) []).
    rewrite last_last. now destruct ns.
Qed.
Lemma c_str_id s : ~ In 0 s -> c_str s = s.
Proof.
  induction s as [|c r IH]; intros H; [reflexivity|]. cbn [c_str]. destruct (Z.eqb_spec c 0) as [E|E].
  - subst. exfalso. apply H. now left.
  - f_equal. apply IH. intros K. apply H. now right.
Qed.
Lemma c_str_zero s : ~ In 0 (c_str s).
Proof.
  induction s as [|c r IH]; [easy|]. cbn [c_str]. destruct (Z.eqb_spec c 0); [easy|]. intros [K|K]; [congruence|auto].
Qed.
Lemma string_zero cs : Forall (fun c => ~ In 0 c) cs -> ~ In 0 (path_string cs).
Proof.
  intros H. unfold path_string. destruct cs as [|c cs]; [now intros [K|[]]|]. intros K. apply in_flat_map in K as (x & Hx & K).
  rewrite Forall_forall in H. destruct K as [K|K]; [discriminate|]. now apply (H x).
Qed.
Lemma string_absolute cs : absolute (path_string cs) = true /\ path_string cs <> [].
Proof. destruct cs; split; try reflexivity; easy. Qed.

Definition plain (cs : list bytes) : Prop := clean cs /\ Forall (fun c => ~ In 0 c) cs.
Lemma resolve_string o cs : plain cs -> resolve o (path_string cs) = walk (os_fs o) (os_links o) [] cs.
Proof.
  intros [H1 H2]. unfold resolve. rewrite c_str_id by now apply string_zero.
  destruct (string_absolute cs) as [Ha Hne]. pose proof (elements_string cs H1) as He.
  destruct (path_string cs) as [|z l]; [easy|]. now rewrite Ha, He.
Qed.
Lemma elements_plain s : ~ In 0 s -> plain (elements s).
Proof. intros H. split; [apply elements_clean|now apply elements_zero]. Qed.

(** What a system call sees of a path with NUL octets. *)
Definition has_zero (c : bytes) : bool := existsb (Z.eqb 0) c.
Fixpoint cut (cs : list bytes) : list bytes :=
  match cs with
  | [] => []
  | c :: cs' => if has_zero c then [c_str c] else c :: cut cs'
  end.
Lemma has_zero_in c : has_zero c = true <-> In 0 c.
Proof.
  unfold has_zero. rewrite existsb_exists. split; [intros (x & H & E); apply Z.eqb_eq in E; now subst x|]. intros H. exists 0. auto.
Qed.
Lemma has_zero_out c : has_zero c = false <-> ~ In 0 c.
Proof. rewrite <- has_zero_in. destruct (has_zero c); split; congruence. Qed.
Lemma cut_id cs : Forall (fun c => ~ In 0 c) cs -> cut cs = cs.
Proof. induction 1 as [|c cs H _ IH]; [reflexivity|]. cbn [cut]. apply has_zero_out in H. now rewrite H, IH. Qed.
Lemma cut_cases cs : Forall (fun c => ~ In 0 c) cs \/
  exists a z b, cs = a ++ z :: b /\ Forall (fun c => ~ In 0 c) a /\ In 0 z.
Proof.
  induction cs as [|c cs IH]; [now left|]. destruct (has_zero c) eqn:E.
  - right. exists [], c, cs. split; [reflexivity|]. split; [constructor|now apply has_zero_in].
  - apply has_zero_out in E. destruct IH as [IH|(a & z & b & -> & H & Hz)]; [left; now constructor|].
    right. exists (c :: a), z, b. split; [reflexivity|]. split; [now constructor|exact Hz].
Qed.
Lemma cut_app a b : Forall (fun c => ~ In 0 c) a -> cut (a ++ b) = a ++ cut b.
Proof. induction 1 as [|c cs H _ IH]; [reflexivity|]. cbn [app cut]. apply has_zero_out in H. now rewrite H, IH. Qed.
Lemma cut_at a z b : Forall (fun c => ~ In 0 c) a -> In 0 z -> cut (a ++ z :: b) = a ++ [c_str z].
Proof. intros Ha Hz. rewrite cut_app by exact Ha. cbn [cut]. apply has_zero_in in Hz. now rewrite Hz. Qed.
Lemma cut_more a : forall b, (Forall (fun c => ~ In 0 c) a /\ cut (a ++ b) = a ++ cut b) \/ (Exists (fun c => In 0 c) a /\ cut (a ++ b) = cut a).
Proof.
  intros b. destruct (cut_cases a) as [H|(a1 & z & b1 & -> & H & Hz)]; [left; split; [exact H|now apply cut_app]|right].
  split; [apply Exists_app; right; now constructor|]. rewrite <- app_assoc. cbn [app]. now rewrite !cut_at.
Qed.
Lemma cut_front a b : exists b', cut (a ++ b) = cut a ++ b'.
Proof.
  destruct (cut_more a b) as [[H E]|[_ E]]; unfold bytes in *; rewrite E; [rewrite (cut_id a H); eauto|exists []; now rewrite app_nil_r].
Qed.
Lemma c_str_part s x : In x (c_str s) -> In x s.
Proof. induction s as [|c s IH]; [easy|]. cbn [c_str]. destruct (c =? 0); [easy|]. intros [K|K]; [now left|right; auto]. Qed.
Lemma cut_zero cs : Forall (fun c => ~ In 0 c) (cut cs).
Proof.
  induction cs as [|c cs IH]; [constructor|]. cbn [cut]. destruct (has_zero c) eqn:E; [repeat constructor; apply c_str_zero|].
  constructor; [now apply has_zero_out|exact IH].
Qed.
Lemma c_str_app a b : ~ In 0 a -> c_str (a ++ b) = a ++ c_str b.
Proof.
  induction a as [|c a IH]; intros H; [reflexivity|]. cbn [app c_str]. destruct (Z.eqb_spec c 0) as [->|_]; [exfalso; apply H; now left|].
  f_equal. apply IH. intros K. apply H. now right.
Qed.
Lemma c_str_first a b : In 0 a -> c_str (a ++ b) = c_str a.
Proof.
  induction a as [|c a IH]; [easy|]. cbn [app c_str]. destruct (Z.eqb_spec c 0) as [->|N]; [reflexivity|]. intros [K|K]; [easy|]. now rewrite IH.
Qed.
Lemma joined_cut cs : c_str (joined cs) = joined (cut cs).
Proof.
  induction cs as [|c cs IH]; [reflexivity|]. change (joined (c :: cs)) with (SLASH :: c ++ joined cs). cbn [c_str cut].
  change (SLASH =? 0) with false. cbv iota. destruct (has_zero c) eqn:E.
  - apply has_zero_in in E. rewrite c_str_first by exact E. cbn [joined flat_map app]. now rewrite app_nil_r.
  - apply has_zero_out in E. rewrite c_str_app by exact E. now rewrite IH.
Qed.
Lemma clean_cut cs : clean cs -> clean (cut cs) \/ cut cs = [[]].
Proof.
  intros (ns & t & -> & Hn & Ht). destruct (cut_cases (ns ++ t)) as [H|(a & z & b & E & Ha & Hz)].
  { left. rewrite cut_id by exact H. now exists ns, t. }
  rewrite E, cut_at by auto.
  assert (K : Forall comp (a ++ [z])).
  { assert (Hns : exists b', ns = a ++ z :: b').
    { destruct Ht as [->|[-> _]]; [rewrite app_nil_r in E; eauto|]. destruct b as [|x b _] using rev_ind.
      - apply app_inj_tail in E as [_ <-]. destruct Hz.
      - rewrite app_comm_cons, app_assoc in E. apply app_inj_tail in E as [E _]. eauto. }
    destruct Hns as [b' ->]. apply Forall_app in Hn as [H1 H2]. apply Forall_cons_iff in H2 as [H2 _]. apply Forall_app. auto. }
  apply Forall_app in K as [Ka Kz]. apply Forall_cons_iff in Kz as [[_ Kz] _].
  destruct (c_str z) as [|x y] eqn:Ez.
  - destruct a as [|c a]; [now right|]. left. exists (c :: a), [[]]. split; [reflexivity|]. split; [exact Ka|]. right. now split.
  - left. exists (a ++ [x :: y]), []. rewrite app_nil_r. split; [reflexivity|]. split; [|now left]. apply Forall_app. split; [exact Ka|].
    constructor; [|constructor]. split; [easy|]. intros K. apply Kz. apply c_str_part. now rewrite Ez.
Qed.
Lemma elements_cut s : cut (elements s) = elements (c_str s) \/ (elements (c_str s) = [] /\ cut (elements s) = [[]]).
Proof.
  assert (HS : split (c_str s) = cut (split s)).
  { induction s as [|c s IH]; [reflexivity|]. cbn [c_str]. destruct (Z.eqb_spec c 0) as [->|N].
    - cbn [split]. change (0 =? SLASH) with false. cbv iota. pose proof (split_ne s). destruct (split s) as [|p ps]; [easy|]. reflexivity.
    - destruct (Z.eq_dec c SLASH) as [->|Ns].
      + change (split (SLASH :: c_str s)) with ([] :: split (c_str s)). change (split (SLASH :: s)) with ([] :: split s). cbn [cut]. now rewrite IH.
      + rewrite !split_cons by exact Ns. rewrite IH. pose proof (split_ne s) as Hne. destruct (split s) as [|p ps]; [easy|]. cbn [hd tl cut has_zero existsb].
        replace (0 =? c) with false by lia. cbn [orb]. fold (has_zero p). destruct (has_zero p); cbn [hd tl c_str]; [|reflexivity].
        destruct (Z.eqb_spec c 0); [easy|reflexivity]. }
  unfold elements. rewrite HS. set (f := fun c : list Z => negb (null c)). change (fun c : bytes => negb (null c)) with f. generalize (split s). clear. intros xs.
  destruct (cut_cases xs) as [H|(a & z & b & -> & Ha & Hz)].
  - left. rewrite (cut_id xs) by exact H. apply cut_id.
    assert (K : Forall (fun c => ~ In 0 c) (filter f xs)).
    { apply Forall_forall. intros c Hc. apply filter_In in Hc as [Hc _]. rewrite Forall_forall in H. auto. }
    destruct (_ && _); [|exact K]. apply Forall_app. split; [exact K|]. repeat constructor. easy.
  - rewrite cut_at by auto.
    assert (Ka : Forall (fun c => ~ In 0 c) (filter f a)).
    { apply Forall_forall. intros c Hc. apply filter_In in Hc as [Hc _]. rewrite Forall_forall in Ha. auto. }
    assert (E1 : filter f (a ++ z :: b) = filter f a ++ z :: filter f b).
    { rewrite filter_app. f_equal. cbn [filter]. unfold f at 1. destruct z; [destruct Hz|reflexivity]. }
    assert (E2 : cut (if null (last (a ++ z :: b) []) && negb (null (filter f (a ++ z :: b))) then filter f (a ++ z :: b) ++ [[]] else filter f (a ++ z :: b)) =
                 filter f a ++ [c_str z]).
    { rewrite E1. destruct (_ && _); [rewrite <- app_assoc; cbn [app]|]; now apply cut_at. }
    unfold bytes in *. rewrite E2, last_last. assert (E3 : filter f (a ++ [c_str z]) = filter f a ++ filter f [c_str z]) by apply filter_app.
    unfold bytes in *. rewrite E3. destruct (c_str z) as [|x y].
    + change (filter f [[]]) with (@nil (list Z)). rewrite app_nil_r. destruct (filter f a) as [|u v] eqn:Ef; cbn [null negb andb]; [right; now split|now left].
    + now left.
Qed.
(** ** Walking *)
Lemma walk_nil fs n l : walk fs n l [] = At l.
Proof. destruct n; reflexivity. Qed.
Lemma walk_cons fs n l c cs : walk fs n l (c :: cs) =
  match fs l with
  | Some (EDir x) =>
    if null c then walk fs n l cs
    else if negb x then Err EACCES
    else if bytes_eqb c dot then walk fs n l cs
    else if bytes_eqb c dotdot then walk fs n (removelast l) cs
    else match fs (l ++ [c]) with
         | None => Err ENOENT
         | Some (ELink t) =>
           match n with
           | O => Err ELOOP
           | S n' => walk fs n' (if absolute t then [] else l) (elements (c_str t) ++ cs)
           end
         | Some _ => walk fs n (l ++ [c]) cs
         end
  | _ => Err ENOTDIR
  end.
Proof. destruct n; reflexivity. Qed.
Lemma resolve_cut o cs : (exists x, os_fs o [] = Some (EDir x)) -> clean cs ->
  resolve o (path_string cs) = walk (os_fs o) (os_links o) [] (cut cs).
Proof.
  intros [x Hx] H. destruct cs as [|c cs]; [now rewrite resolve_string by (split; [exact H|constructor])|].
  unfold resolve. change (path_string (c :: cs)) with (joined (c :: cs)). rewrite joined_cut.
  assert (Hc : cut (c :: cs) <> []) by (cbn [cut]; now destruct (has_zero c)). destruct (clean_cut _ H) as [K|K].
  - pose proof (elements_string _ K) as E. unfold path_string in E. fold (joined (cut (c :: cs))) in E.
    destruct (cut (c :: cs)) as [|d ds]; [easy|].
    assert (Hj : absolute (joined (d :: ds)) = true /\ joined (d :: ds) <> []) by (split; [reflexivity|easy]). destruct Hj as [Ha Hj].
    destruct (joined (d :: ds)) as [|z l]; [easy|]. now rewrite Ha, E.
  - rewrite K. cbn [joined flat_map app absolute]. change (SLASH =? SLASH) with true. change (elements [SLASH]) with (@nil bytes). cbv iota.
    now rewrite walk_nil, walk_cons, Hx, walk_nil.
Qed.
Ltac walk_case E :=
  rewrite walk_cons in E;
  match type of E with context [match ?fs ?l with _ => _ end] => destruct (fs l) as [[? ? ?|[]|?|]|] eqn:?; try discriminate E end;
  match type of E with context [null ?c] => destruct (null c) eqn:?; cbn [negb] in E; try discriminate E end;
  match type of E with context [bytes_eqb ?c dot] => destruct (bytes_eqb c dot) eqn:?; try discriminate E | _ => idtac end;
  match type of E with context [bytes_eqb ?c dotdot] => destruct (bytes_eqb c dotdot) eqn:?; try discriminate E | _ => idtac end.

Lemma null_eq {A} (c : list A) : null c = true <-> c = [].
Proof. destruct c; split; easy. Qed.
Lemma null_ne {A} (c : list A) : null c = false <-> c <> [].
Proof. destruct c; split; easy. Qed.

Lemma walk_resolves fs n : forall l cs l', walk fs n l cs = At l' <-> resolves fs n l cs l'.
Proof.
  intros l cs l'. split.
  - revert l cs l'. induction n as [|n IHn]; (intros l cs; revert l; induction cs as [|c cs IH]; intros l l' E;
      [rewrite walk_nil in E; injection E as <-; constructor|]); rewrite walk_cons in E.
    all: destruct (fs l) as [[? ? ?|x|?|]|] eqn:El; try discriminate E.
    all: destruct (null c) eqn:En; [apply null_eq in En as ->; eapply resolves_slash; eauto|apply null_ne in En].
    all: destruct x; cbn [negb] in E; try discriminate E.
    all: destruct (bytes_eqb c dot) eqn:Ed; [apply bytes_eqb_eq in Ed as ->; eapply resolves_dot; eauto|apply bytes_eqb_neq in Ed].
    all: destruct (bytes_eqb c dotdot) eqn:Edd; [apply bytes_eqb_eq in Edd as ->; eapply resolves_up; eauto|apply bytes_eqb_neq in Edd].
    all: destruct (fs (l ++ [c])) as [[? ? ?|y|t|]|] eqn:Ee; try discriminate E.
    all: try (eapply resolves_name; eauto; easy).
    eapply resolves_link; eauto.
  - induction 1; rewrite ?walk_nil, ?walk_cons; auto.
    + rewrite H. auto.
    + rewrite H. auto.
    + rewrite H. auto.
    + rewrite H. apply null_ne in H0. apply bytes_eqb_neq in H1, H2. rewrite H0, H1, H2. cbn [negb]. rewrite H3.
      destruct e; auto. exfalso. eapply H4. reflexivity.
    + rewrite H. apply null_ne in H0. apply bytes_eqb_neq in H1, H2. rewrite H0, H1, H2. cbn [negb]. now rewrite H3.
Qed.

Lemma walk_at_app fs n : forall l a m, walk fs n l a = At m ->
  exists n', (n' <= n)%nat /\ forall b, walk fs n l (a ++ b) = walk fs n' m b.
Proof.
  induction n as [|n IHn]; (intros l a; revert l; induction a as [|c a IH]; intros l m E;
    [rewrite walk_nil in E; injection E as <-; eexists; split; [apply le_n|reflexivity]|]); rewrite walk_cons in E.
  all: cbn [app]; destruct (fs l) as [[? ? ?|x|?|]|] eqn:El; try discriminate E.
  all: destruct (null c) eqn:En; [destruct (IH _ _ E) as (n' & Hn & H); exists n'; split; [exact Hn|intros b; now rewrite walk_cons, El, En, H]|].
  all: destruct x; cbn [negb] in E; try discriminate E.
  all: destruct (bytes_eqb c dot) eqn:Ed; [destruct (IH _ _ E) as (n' & Hn & H); exists n'; split; [exact Hn|intros b; rewrite walk_cons, El, En, Ed; cbn [negb]; now rewrite H]|].
  all: destruct (bytes_eqb c dotdot) eqn:Edd; [destruct (IH _ _ E) as (n' & Hn & H); exists n'; split; [exact Hn|intros b; rewrite walk_cons, El, En, Ed, Edd; cbn [negb]; now rewrite H]|].
  all: destruct (fs (l ++ [c])) as [[? ? ?|y|t|]|] eqn:Ee; try discriminate E.
  all: try (destruct (IH _ _ E) as (n' & Hn & H); exists n'; split; [exact Hn|intros b; rewrite walk_cons, El, En, Ed, Edd, Ee; cbn [negb]; now rewrite H]).
  destruct (IHn _ _ _ E) as (n' & Hn & H). exists n'. split; [lia|]. intros b. rewrite walk_cons, El, En, Ed, Edd, Ee. cbn [negb].
  rewrite <- H, app_assoc. reflexivity.
Qed.
Lemma walk_err_app fs n : forall l a e, walk fs n l a = Err e -> forall b, walk fs n l (a ++ b) = Err e.
Proof.
  induction n as [|n IHn]; (intros l a; revert l; induction a as [|c a IH]; intros l e E b; [rewrite walk_nil in E; discriminate E|]);
    rewrite walk_cons in E; cbn [app]; rewrite walk_cons.
  all: destruct (fs l) as [[? ? ?|x|?|]|] eqn:El; auto.
  all: destruct (null c) eqn:En; auto; destruct x; cbn [negb] in *; auto.
  all: destruct (bytes_eqb c dot) eqn:Ed; auto; destruct (bytes_eqb c dotdot) eqn:Edd; auto.
  all: destruct (fs (l ++ [c])) as [[? ? ?|y|t|]|] eqn:Ee; auto.
  rewrite app_assoc. auto.
Qed.
Lemma walk_more fs n : forall l a r, walk fs n l a = r -> r <> Err ELOOP -> forall m, (n <= m)%nat -> walk fs m l a = r.
Proof.
  induction n as [|n IHn]; (intros l a; revert l; induction a as [|c a IH]; intros l r E Hr m Hm; [now rewrite walk_nil in *|]);
    rewrite walk_cons in *.
  all: destruct (fs l) as [[? ? ?|x|?|]|] eqn:El; auto.
  all: destruct (null c) eqn:En; auto; destruct x; cbn [negb] in *; auto.
  all: destruct (bytes_eqb c dot) eqn:Ed; auto; destruct (bytes_eqb c dotdot) eqn:Edd; auto.
  all: destruct (fs (l ++ [c])) as [[? ? ?|y|t|]|] eqn:Ee; auto.
  - congruence.
  - destruct m as [|m]; [lia|]. apply IHn; auto. lia.
Qed.

(** ** Real places *)
Lemma real_nil fs : real_place fs [].
Proof. intros a c b E. now destruct a. Qed.
Lemma real_snoc fs l c e : real_place fs l -> c <> [] -> c <> dot -> c <> dotdot -> ~ In SLASH c -> ~ In 0 c ->
  fs l = Some (EDir true) -> fs (l ++ [c]) = Some e -> (forall t, e <> ELink t) -> real_place fs (l ++ [c]).
Proof.
  intros Hl H1 H2 H3 H4 H5 H6 H7 H8 a d b E.
  destruct b as [|x b] using rev_ind.
  - apply app_inj_tail in E as [-> ->]. do 6 (split; auto). eauto.
  - change (a ++ d :: b ++ [x]) with (a ++ (d :: b) ++ [x]) in E. rewrite app_assoc in E. apply app_inj_tail in E as [E _].
    now apply (Hl a d b).
Qed.
Lemma real_prefix fs a b : real_place fs (a ++ b) -> real_place fs a.
Proof. intros H x c y ->. rewrite <- app_assoc in H. now apply (H x c (y ++ b)). Qed.
Lemma removelast_prefix {A} (l : list A) : exists b, l = removelast l ++ b.
Proof.
  destruct l as [|x l _] using rev_ind; [now exists []|]. exists [x]. now rewrite removelast_last.
Qed.
Lemma real_walk fs l : real_place fs l -> forall n cs, walk fs n [] (l ++ cs) = walk fs n l cs.
Proof.
  induction l as [|c l IH] using rev_ind; intros H n cs; [reflexivity|].
  destruct (H l c [] eq_refl) as (H1 & H2 & H3 & _ & _ & H6 & e & H7 & H8).
  rewrite <- app_assoc. rewrite IH by now apply real_prefix in H. cbn [app]. rewrite walk_cons, H6.
  apply null_ne in H1. apply bytes_eqb_neq in H2, H3. rewrite H1, H2, H3, H7. cbn [negb].
  destruct e; auto. exfalso. eapply H8. reflexivity.
Qed.
Definition parts_ok (cs : list bytes) : Prop := Forall (fun c => ~ In SLASH c /\ ~ In 0 c) cs.
Lemma plain_parts cs : plain cs -> parts_ok cs.
Proof.
  intros [(ns & t & -> & Hn & Ht) H0]. apply Forall_forall. intros c Hc. rewrite Forall_forall in H0. split; [|auto].
  rewrite Forall_forall in Hn. apply in_app_iff in Hc as [Hc|Hc]; [now apply Hn|].
  destruct Ht as [->|[-> _]]; [destruct Hc|destruct Hc as [<-|[]]; easy].
Qed.
Lemma walk_real fs n : forall l cs l', real_place fs l -> parts_ok cs -> walk fs n l cs = At l' -> real_place fs l'.
Proof.
  intros l cs l' Hl Hc E. apply walk_resolves in E. induction E; auto.
  all: apply Forall_cons_iff in Hc as [[Hs Hz] Hc]; auto.
  - apply IHE; auto. destruct (removelast_prefix l) as (b & Eb). rewrite Eb in Hl. now apply real_prefix in Hl.
  - apply IHE; auto. eapply real_snoc; eauto.
  - apply IHE; [destruct (absolute t); [apply real_nil|exact Hl]|].
    apply Forall_app. split; [|exact Hc]. apply plain_parts, elements_plain, c_str_zero.
Qed.
Lemma real_clean fs l : real_place fs l -> plain l.
Proof.
  intros H. assert (K : Forall (fun c => comp c /\ ~ In 0 c) l).
  { apply Forall_forall. intros c Hc. apply in_split in Hc as (a & b & E). destruct (H a c b E) as (H1 & _ & _ & H4 & H5 & _).
    now repeat split. }
  split; [|eapply Forall_impl; [|exact K]; now intros ? [? ?]].
  exists l, []. rewrite app_nil_r. split; [auto|]. split; [eapply Forall_impl; [|exact K]; now intros ? [? ?]|now left].
Qed.
Lemma real_root fs l e : real_place fs l -> l <> [] -> fs l = Some e -> exists x, fs [] = Some (EDir x).
Proof. intros H Hne _. destruct l as [|c l]; [easy|]. destruct (H [] c l eq_refl) as (_ & _ & _ & _ & _ & H6 & _). eauto. Qed.
Lemma real_entry fs l : real_place fs l -> fs [] <> None -> exists e, fs l = Some e.
Proof.
  intros H H0. destruct l as [|c l _] using rev_ind.
  - destruct (fs []) as [e|]; [eauto|easy].
  - destruct (H l c [] eq_refl) as (_ & _ & _ & _ & _ & _ & e & He & _). eauto.
Qed.

(** ** Normal forms *)
Definition name (c : bytes) : Prop := c <> [] /\ c <> dot /\ c <> dotdot /\ ~ In SLASH c /\ ~ In 0 c.
Lemma real_names fs l : real_place fs l -> Forall name l.
Proof.
  intros H. apply Forall_forall. intros c Hc. apply in_split in Hc as (a & b & E).
  destruct (H a c b E) as (H1 & H2 & H3 & H4 & H5 & _). now repeat split.
Qed.
Lemma normal_names l : Forall name l -> forall st sl p, normal st sl (l ++ p) = normal (rev l ++ st) (match l with [] => sl | _ => false end) p.
Proof.
  induction 1 as [|c l (H1 & H2 & H3 & _) _ IH]; intros st sl p; [reflexivity|].
  cbn [app normal rev]. apply bytes_eqb_neq in H2, H3. apply null_ne in H1. rewrite H1, H2, H3. cbn [orb].
  rewrite IH, <- app_assoc. cbn [app]. now destruct l.
Qed.
(** A name that may have NUL octets. *)
Definition named (c : bytes) : Prop := c <> [] /\ c <> dot /\ c <> dotdot /\ ~ In SLASH c.
Lemma name_named c : name c -> named c.
Proof. intros (H1 & H2 & H3 & H4 & _). now repeat split. Qed.
Lemma clean_parts cs : clean cs -> Forall (fun c => ~ In SLASH c) cs.
Proof.
  intros (ns & t & -> & Hn & Ht). apply Forall_app. split; [eapply Forall_impl; [|exact Hn]; now intros c [_ H]|].
  destruct Ht as [->|[-> _]]; [constructor|constructor; [easy|constructor]].
Qed.
Lemma cut_parts cs : Forall (fun c => ~ In SLASH c) cs -> parts_ok (cut cs).
Proof.
  intros H. assert (K : Forall (fun c => ~ In SLASH c) (cut cs)).
  { induction H as [|c cs H _ IH]; [constructor|]. cbn [cut]. destruct (has_zero c); constructor; auto. intros K. apply H. now apply c_str_part. }
  apply Forall_forall. intros c Hc. pose proof (cut_zero cs) as Z. rewrite Forall_forall in K, Z. auto.
Qed.
Lemma normal_shape p : Forall (fun c => ~ In SLASH c) p -> forall st sl, Forall named st ->
  exists ns t, normal st sl p = ns ++ t /\ Forall named ns /\ tail_ok ns t.
Proof.
  induction 1 as [|c p Hs _ IH]; intros st sl Hst; cbn [normal].
  - exists (rev st), (if sl && negb (null st) then [[]] else []). split; [reflexivity|]. split; [now apply Forall_rev|].
    destruct sl; [|now left]. destruct st as [|c st]; [now left|]. right. split; [reflexivity|].
    cbn [rev]. now destruct (rev st).
  - destruct (bytes_eqb c dotdot) eqn:E1; [apply IH; destruct Hst; cbn; auto|].
    destruct (bytes_eqb c dot) eqn:E2; [now apply IH|]. destruct (null c) eqn:E3; [now apply IH|]. cbn [orb].
    apply IH. constructor; [|exact Hst]. apply bytes_eqb_neq in E1, E2. apply null_ne in E3. now repeat split.
Qed.
Lemma shape_clean ns t : Forall named ns -> tail_ok ns t -> clean (ns ++ t).
Proof.
  intros H Ht. exists ns, t. split; [auto|]. split; [|auto]. eapply Forall_impl; [|exact H]. intros c (H1 & _ & _ & H4). now split.
Qed.
Lemma shape_plain ns t : Forall name ns -> tail_ok ns t -> plain (ns ++ t).
Proof.
  intros H Ht. split.
  - exists ns, t. split; [auto|]. split; [|auto]. eapply Forall_impl; [|exact H]. intros c (H1 & _ & _ & H4 & _). now split.
  - apply Forall_app. split; [eapply Forall_impl; [|exact H]; intros c (_ & _ & _ & _ & H5); exact H5|].
    destruct Ht as [->|[-> _]]; [constructor|constructor; [easy|constructor]].
Qed.

(** Without ".." normalisation only drops components. *)
Lemma normal_front p : forall st sl, ~ In dotdot p -> exists b, normal st sl p = rev st ++ b.
Proof.
  induction p as [|d p IH]; intros st sl Hd; cbn [normal]; [eexists; reflexivity|].
  destruct (bytes_eqb d dotdot) eqn:E; [apply bytes_eqb_eq in E as ->; exfalso; apply Hd; now left|].
  assert (Hd' : ~ In dotdot p) by (intros K; apply Hd; now right).
  destruct (_ || _); [now apply IH|]. destruct (IH (d :: st) false Hd') as (b & ->). cbn [rev]. rewrite <- app_assoc. eauto.
Qed.
(** Behind something that is not a directory nothing is found. *)
Lemma normal_slash p : forall st, st <> [] -> ~ In dotdot p -> exists c b, normal st true p = rev st ++ c :: b.
Proof.
  induction p as [|d p IH]; intros st Hne Hd; cbn [normal].
  - destruct st; [easy|]. now eexists _, _.
  - destruct (bytes_eqb d dotdot) eqn:E; [apply bytes_eqb_eq in E as ->; exfalso; apply Hd; now left|].
    assert (Hd' : ~ In dotdot p) by (intros K; apply Hd; now right).
    destruct (_ || _); [now apply IH|]. destruct (normal_front p (d :: st) false Hd') as (b & ->). cbn [rev]. rewrite <- app_assoc. cbn.
    eauto.
Qed.

(** ** Containment *)
Lemma within_below base full : within base full = true <-> below base full.
Proof.
  revert full. induction base as [|b base IH]; intros full; [cbn; split; [exists full|]; auto|].
  destruct full as [|f full]; cbn [within].
  - split; [easy|]. now intros [rest E].
  - rewrite andb_true_iff, bytes_eqb_eq, IH. split.
    + intros [-> (rest & ->)]. now exists rest.
    + intros [rest E]. injection E as -> ->. split; [auto|now exists rest].
Qed.

Section Handle.
  Variable o : os.
  Hypothesis Hcwd : real_place (os_fs o) (os_cwd o).
  Notation fs := (os_fs o).
  Notation wk := (walk (os_fs o) (os_links o)).

  Lemma status_at l p e : plain p -> wk [] p = At l -> fs l = Some e -> fs_status o (path_string p) = Ret (Some e).
  Proof. intros H E He. unfold fs_status. now rewrite resolve_string, E, He. Qed.
  Lemma weakly_at l p e : plain p -> wk [] p = At l -> fs l = Some e -> weakly_canonical o p = Ret l.
  Proof.
    intros H E He. unfold weakly_canonical, fs_exists. rewrite (status_at l p e); auto. cbn [obind].
    unfold fs_canonical. now rewrite resolve_string, E.
  Qed.

  Lemma weakly_cut l p e : (exists x, fs [] = Some (EDir x)) -> clean p -> wk [] (cut p) = At l -> fs l = Some e -> weakly_canonical o p = Ret l.
  Proof.
    intros Hr H E He. unfold weakly_canonical, fs_exists, fs_status. rewrite resolve_cut, E, He by auto. cbn [obind].
    unfold fs_canonical. now rewrite resolve_cut, E.
  Qed.
  Lemma names_plain ns cs : Forall name ns -> plain cs -> plain (ns ++ cs).
  Proof.
    intros Hl [(ns' & t & -> & Hn & Ht) Hz]. rewrite app_assoc. split.
    - exists (ns ++ ns'), t. split; [auto|]. split.
      + apply Forall_app. split; [|auto]. eapply Forall_impl; [|exact Hl]. intros c (H1 & _ & _ & H4 & _). now split.
      + destruct Ht as [->|[-> Hne]]; [now left|]. right. split; [auto|]. intros E. apply app_eq_nil in E as [_ E]. easy.
    - rewrite <- app_assoc. apply Forall_app. split; [|auto]. eapply Forall_impl; [|exact Hl]. now intros c (_ & _ & _ & _ & H5).
  Qed.

  Lemma root_status root l0 : root_at o root l0 ->
    exists p, fs_absolute o root = Ret p /\ plain p /\ wk [] p = At l0 /\ real_place fs l0.
  Proof.
    intros (Hne & Hz & _ & H). pose proof (elements_plain root Hz) as Hp. apply walk_resolves in H.
    unfold fs_absolute. destruct root as [|c root]; [easy|]. set (s := c :: root) in *. destruct (absolute s) eqn:E.
    - exists (elements s). split; [auto|]. split; [auto|]. split; [auto|].
      eapply walk_real; [apply real_nil|apply plain_parts; exact Hp|exact H].
    - exists (os_cwd o ++ elements s). split; [auto|]. split; [apply names_plain; [now apply real_names in Hcwd|auto]|].
      split; [now rewrite real_walk|]. eapply walk_real; [exact Hcwd|apply plain_parts; exact Hp|exact H].
  Qed.
  Lemma root_unique root l0 l1 : root_at o root l0 -> root_at o root l1 -> l0 = l1.
  Proof. intros (_ & _ & _ & H0) (_ & _ & _ & H1). apply walk_resolves in H0, H1. congruence. Qed.

  Lemma names_clean ns cs : Forall name ns -> clean cs -> clean (ns ++ cs).
  Proof.
    intros Hl (ns' & t & -> & Hn & Ht). rewrite app_assoc. exists (ns ++ ns'), t. split; [auto|]. split.
    - apply Forall_app. split; [|auto]. eapply Forall_impl; [|exact Hl]. intros c (H1 & _ & _ & H4 & _). now split.
    - destruct Ht as [->|[-> Hne]]; [now left|]. right. split; [auto|]. intros E. apply app_eq_nil in E as [_ E]. easy.
  Qed.
  Lemma append_clean l0 rel : real_place fs l0 -> clean (fs_append l0 rel).
  Proof.
    intros H. pose proof (elements_clean rel) as Hp. unfold fs_append. destruct (absolute rel); [auto|].
    pose proof (real_names _ _ H) as Hn. destruct rel as [|c rel].
    - destruct l0 as [|d l0]; [exists [], []; repeat split; auto; now left|].
      apply shape_plain; auto. right. now split.
    - now apply names_clean.
  Qed.
  (** The path handed to weakly_canonical leads where the request leads. *)
  Lemma append_walk l0 rel : real_place fs l0 -> (exists x, fs [] = Some (EDir x)) -> (exists x, fs l0 = Some (EDir x)) ->
    wk [] (cut (fs_append l0 rel)) = wk (if absolute rel then [] else l0) (elements (c_str rel)).
  Proof.
    intros H [y Hy] [x Hx]. pose proof (real_clean _ _ H) as [_ H0].
    assert (K : forall l, fs l = Some (EDir x) \/ fs l = Some (EDir y) -> wk l (cut (elements rel)) = wk l (elements (c_str rel))).
    { intros l Hl. destruct (elements_cut rel) as [E|[E1 E2]]; [now rewrite E|]. rewrite E1, E2, walk_nil, walk_cons.
      destruct Hl as [-> | ->]; cbn [null]; apply walk_nil. }
    unfold fs_append. destruct (absolute rel) eqn:E; [auto|]. destruct rel as [|c rel].
    - change (elements (c_str [])) with (@nil bytes). rewrite walk_nil. destruct l0 as [|d l0]; [now rewrite walk_nil|].
      rewrite cut_app by exact H0. change (cut [[]]) with ([[]] : list bytes).
      rewrite real_walk, walk_cons, Hx by auto. cbn [null]. now rewrite walk_nil.
    - rewrite cut_app by exact H0. rewrite real_walk by exact H. auto.
  Qed.

  (** What sanitize_path returns. *)
  Lemma sanitize_eq root l0 rel : root_at o root l0 ->
    sanitize o root rel =
      (let! full := weakly_canonical o (fs_append l0 rel) in Ret (if within l0 full then Some (path_string full) else None)).
  Proof.
    intros Hr. pose proof Hr as (_ & _ & [x Hx] & _). destruct (root_status root l0 Hr) as (p & E1 & Hp & E2 & Hl).
    unfold sanitize. rewrite E1. cbn [obind]. rewrite (status_at l0 p (EDir x)) by auto. cbn [obind].
    now rewrite (weakly_at l0 p (EDir x)).
  Qed.
  Lemma root_found root rel s : ~ In 0 root -> sanitize_path o root rel = Some s -> exists l0, root_at o root l0.
  Proof.
    intros Hz. unfold sanitize_path, sanitize. destruct (fs_absolute o root) as [p| | |] eqn:E; try discriminate. cbn [obind].
    unfold fs_absolute in E. destruct root as [|c root]; [discriminate|]. set (r := c :: root) in *.
    pose proof (elements_plain r Hz) as Hp.
    assert (Hpp : plain p /\ wk [] p = wk (if absolute r then [] else os_cwd o) (elements r)).
    { assert (Ep : p = if absolute r then elements r else os_cwd o ++ elements r) by (symmetry; exact (f_equal (fun y => match y with Ret z => z | _ => p end) E)). subst p.
      destruct (absolute r); [split; [exact Hp|reflexivity]|]. split; [apply names_plain; [now apply real_names in Hcwd|auto]|].
      now rewrite real_walk. }
    destruct Hpp as [Hpl Hw]. unfold fs_status. rewrite resolve_string by auto. rewrite Hw.
    destruct (wk _ (elements r)) as [l|e] eqn:Ew; [|destruct e; discriminate]. cbn [obind].
    destruct (fs l) as [[? ? ?|x|?|]|] eqn:El; try discriminate. intros _. exists l.
    split; [easy|]. split; [auto|]. split; [eauto|]. now apply walk_resolves.
  Qed.

  Lemma plain_front a b : plain (a ++ b) -> plain a.
  Proof.
    intros [(ns & t & E & Hn & Ht) Hz]. apply Forall_app in Hz as [Hz _].
    destruct b as [|x b _] using rev_ind.
    - rewrite app_nil_r in E. subst a. split; [now exists ns, t|exact Hz].
    - split; [|exact Hz].
      assert (H : exists b', ns = a ++ b').
      { destruct Ht as [->|[-> _]].
        - rewrite app_nil_r in E. now exists (b ++ [x]).
        - rewrite app_assoc in E. apply app_inj_tail in E as [E _]. now exists b. }
      destruct H as [b' ->]. apply Forall_app in Hn as [Hn _]. exists a, []. rewrite app_nil_r. split; [auto|]. split; [auto|now left].
  Qed.

  Lemma clean_front a b : clean (a ++ b) -> clean a.
  Proof.
    intros (ns & t & E & Hn & Ht). destruct b as [|x b _] using rev_ind.
    - rewrite app_nil_r in E. subst a. now exists ns, t.
    - assert (H : exists b', ns = a ++ b').
      { destruct Ht as [->|[-> _]].
        - rewrite app_nil_r in E. now exists (b ++ [x]).
        - rewrite app_assoc in E. apply app_inj_tail in E as [E _]. now exists b. }
      destruct H as [b' ->]. apply Forall_app in Hn as [Hn _]. exists a, []. rewrite app_nil_r. split; [auto|]. split; [auto|now left].
  Qed.
  Lemma cut_err a b e : wk [] (cut a) = Err e -> wk [] (cut (a ++ b)) = Err e.
  Proof. intros H. destruct (cut_front a b) as [b' E]. unfold bytes in *. rewrite E. now apply walk_err_app. Qed.
  Lemma leading_spec p : forall result L, clean (result ++ p) -> wk [] (cut result) = At L -> (exists x, fs [] = Some (EDir x)) ->
    match leading o result p with
    | Ret (r, rest) => exists L', result ++ p = r ++ rest /\ wk [] (cut r) = At L' /\
        match rest with
        | [] => True
        | c :: _ => wk [] (cut (r ++ [c])) = Err ENOENT \/ wk [] (cut (r ++ [c])) = Err ENOTDIR
        end
    | _ => wk [] (cut (result ++ p)) = Err EACCES \/ wk [] (cut (result ++ p)) = Err ELOOP
    end.
  Proof.
    induction p as [|c p IH]; intros result L Hp E H0; cbn [leading].
    - exists L. rewrite app_nil_r. auto.
    - assert (Hp1 : clean (result ++ [c])).
      { apply (clean_front _ p). now rewrite <- app_assoc. }
      assert (Hpp : result ++ c :: p = (result ++ [c]) ++ p) by now rewrite <- app_assoc.
      unfold fs_exists, fs_status. rewrite resolve_cut by auto.
      destruct (wk [] (cut (result ++ [c]))) as [l|e] eqn:Ew.
      + cbn [obind].
        assert (Hr : real_place fs l) by (eapply walk_real; [apply real_nil|apply cut_parts, clean_parts; exact Hp1|exact Ew]).
        destruct (real_entry _ _ Hr ltac:(destruct H0; congruence)) as [en ->]. cbn [obind]. rewrite Hpp. apply (IH (result ++ [c]) l); auto.
        now rewrite <- Hpp.
      + destruct e; cbn [obind].
        * exists L. auto.
        * exists L. auto.
        * left. rewrite Hpp. now apply cut_err.
        * right. rewrite Hpp. now apply cut_err.
  Qed.

  (** Where the path that passes the check comes from. *)
  Lemma sanitized root l0 rel s : root_at o root l0 -> sanitize_path o root rel = Some s ->
    exists full, s = path_string full /\ below l0 full /\ (exists x, fs [] = Some (EDir x)) /\
      (leads_to o l0 rel full \/
       exists r c rest L, fs_append l0 rel = r ++ c :: rest /\ Forall (fun c => ~ In 0 c) r /\ wk [] r = At L /\ real_place fs L /\
         (wk [] (r ++ cut [c]) = Err ENOENT \/ wk [] (r ++ cut [c]) = Err ENOTDIR) /\
         full = lexically_normal (L ++ c :: rest)).
  Proof.
    intros Hr. pose proof Hr as (_ & _ & Hx & _). destruct (root_status root l0 Hr) as (_ & _ & _ & _ & Hl).
    assert (H0 : exists x, fs [] = Some (EDir x)).
    { destruct Hx as [x Hx]. destruct l0 as [|c l0]; [eauto|]. exact (real_root _ _ _ Hl ltac:(easy) Hx). }
    unfold sanitize_path. rewrite (sanitize_eq root l0) by auto.
    destruct (weakly_canonical o (fs_append l0 rel)) as [full| | |] eqn:Ew; try discriminate. cbn [obind].
    destruct (within l0 full) eqn:Ei; [|discriminate]. apply within_below in Ei. intros [= <-].
    exists full. split; [auto|]. split; [auto|]. split; [auto|].
    pose proof (append_clean l0 rel Hl) as Hp. pose proof (append_walk l0 rel Hl H0 Hx) as Haw.
    unfold weakly_canonical, fs_exists, fs_status in Ew. rewrite resolve_cut in Ew by auto.
    destruct (wk [] (cut (fs_append l0 rel))) as [l|e] eqn:Eq.
    - left. cbn [obind] in Ew.
      assert (Hrl : real_place fs l) by (eapply walk_real; [apply real_nil|apply cut_parts, clean_parts; exact Hp|exact Eq]).
      destruct (real_entry _ _ Hrl ltac:(destruct H0; congruence)) as [en Hen]. rewrite Hen in Ew. cbn [obind] in Ew. unfold fs_canonical in Ew.
      rewrite resolve_cut, Eq in Ew by auto. injection Ew as <-. unfold leads_to. apply walk_resolves. congruence.
    - right. assert (Ew2 : (let! (result, rest) := leading o [] (fs_append l0 rel) in
                            let! result' := fs_canonical o result in Ret (lexically_normal (result' ++ rest))) = Ret full).
      { destruct e; try discriminate; exact Ew. }
      clear Ew. pose proof (leading_spec (fs_append l0 rel) [] [] Hp (walk_nil _ _ _) H0) as HL.
      destruct (leading o [] (fs_append l0 rel)) as [[r rest]| | |]; try discriminate. cbn [obind] in Ew2.
      destruct HL as (L & E1 & E2 & E3). cbn [app] in E1. rewrite E1 in Hp.
      unfold fs_canonical in Ew2. rewrite resolve_cut in Ew2 by (auto; now apply clean_front in Hp). rewrite E2 in Ew2.
      cbn [obind] in Ew2. injection Ew2 as <-.
      destruct rest as [|c rest]; [rewrite app_nil_r in E1; congruence|].
      assert (Hz : Forall (fun c => ~ In 0 c) r /\ cut (r ++ [c]) = r ++ cut [c]).
      { destruct (cut_more r [c]) as [K|[_ K]]; [exact K|]. exfalso. unfold path, bytes in *. rewrite K, E2 in E3. destruct E3; discriminate. }
      destruct Hz as [Hz Ec]. rewrite (cut_id r Hz) in E2. unfold path, bytes in *. rewrite Ec in E3.
      exists r, c, rest, L. split; [auto|]. split; [auto|]. split; [auto|]. split; [|auto].
      eapply walk_real; [apply real_nil| |exact E2]. rewrite <- (cut_id r Hz). apply cut_parts, clean_parts. eapply clean_front; exact Hp.
  Qed.

  (** A path that passes the check but does not lead anywhere needs a ".." and a link to
      be served. *)
  Lemma missing_plain r c rest L : wk [] r = At L -> real_place fs L ->
    (exists x, fs [] = Some (EDir x)) ->
    (wk [] (r ++ cut [c]) = Err ENOENT \/ wk [] (r ++ cut [c]) = Err ENOTDIR) -> ~ In dotdot (c :: rest) ->
    exists e, wk [] (cut (lexically_normal (L ++ c :: rest))) = Err e.
  Proof.
    intros Er HL Hroot Ec Hd. unfold lexically_normal. rewrite normal_names by now apply real_names in HL.
    pose proof (real_clean _ _ HL) as [_ HZ].
    rewrite app_nil_r. destruct (walk_at_app _ _ _ _ _ Er) as (n' & Hn & Happ). rewrite !Happ in Ec.
    set (sl := match L with [] => false | _ => false end). assert (Hsl : sl = false) by (subst sl; now destruct L). rewrite Hsl.
    destruct (bytes_eqb c dot || null c) eqn:Ecc.
    - (* then L is not a directory *)
      assert (Hcut : cut [c] = [c]).
      { apply cut_id. repeat constructor. apply orb_true_iff in Ecc as [K|K]; [apply bytes_eqb_eq in K as ->; now intros [?|[]]|apply null_eq in K as ->; easy]. }
      rewrite Hcut in Ec.
      assert (HF : forall x, fs L <> Some (EDir x)).
      { intros x E. rewrite walk_cons, walk_nil, E in Ec. destruct (null c) eqn:E1; [destruct Ec; discriminate|].
        destruct x; cbn [negb] in Ec; [|destruct Ec; discriminate]. rewrite orb_false_r in Ecc. rewrite Ecc in Ec.
        destruct Ec; discriminate. }
      assert (HLne : L <> []) by (intros ->; destruct Hroot as [x Hx]; now apply (HF x)).
      cbn [normal]. rewrite Ecc. destruct (bytes_eqb c dotdot) eqn:Edd; [apply bytes_eqb_eq in Edd as ->; exfalso; apply Hd; now left|].
      destruct (normal_slash rest (rev L)) as (d & b & ->).
      { intros E. apply HLne. now rewrite <- (rev_involutive L), E. }
      { intros K. apply Hd. now right. }
      rewrite rev_involutive, cut_app by exact HZ. rewrite real_walk by auto. cbn [cut]. exists ENOTDIR.
      destruct (has_zero d); rewrite walk_cons; (destruct (fs L) as [[]|] eqn:E; auto; exfalso; now apply (HF search)).
    - cbn [normal]. rewrite Ecc. destruct (bytes_eqb c dotdot) eqn:Edd; [apply bytes_eqb_eq in Edd as ->; exfalso; apply Hd; now left|].
      destruct (normal_front rest (c :: rev L) false) as (b & ->); [intros K; apply Hd; now right|].
      cbn [rev]. rewrite rev_involutive, <- app_assoc, cut_app, real_walk by auto.
      destruct (cut_front [c] b) as [b' Eb]. unfold bytes in *. rewrite Eb.
      destruct Ec as [Ec|Ec]; eexists; apply walk_err_app; (eapply walk_more; [exact Ec|easy|exact Hn]).
  Qed.

  (** Without links below the root, what is found is below it, or is a directory. *)
  Lemma missing_no_links l0 full l : real_place fs l0 -> (exists x, fs l0 = Some (EDir x)) -> (forall rest t, fs (l0 ++ rest) <> Some (ELink t)) ->
    (exists ns t, full = ns ++ t /\ Forall named ns /\ tail_ok ns t) -> below l0 full -> wk [] (cut full) = At l ->
    below l0 l \/ exists x, fs l = Some (EDir x).
  Proof.
    intros Hl Hd0 Hno (ns & t & -> & Hn & Ht) [q Eq] E. pose proof (real_clean _ _ Hl) as [_ HZ].
    rewrite Eq, cut_app, real_walk in E by auto.
    assert (Hq : Forall (fun c : bytes => c = [] \/ named c) q).
    { assert (H : Forall (fun c : bytes => c = [] \/ named c) (l0 ++ q)).
      { rewrite <- Eq. apply Forall_app. split; [eapply Forall_impl; [|exact Hn]; auto|].
        destruct Ht as [->|[-> _]]; [constructor|constructor; [now left|constructor]]. }
      now apply Forall_app in H as [_ H]. }
    assert (K : forall q a m, Forall (fun c : bytes => c = [] \/ named c) q -> (fs (l0 ++ a) = fs l0 \/ a <> []) -> wk (l0 ++ a) (cut q) = At m ->
      below l0 m \/ exists x, fs m = Some (EDir x)).
    { clear -Hno Hl Hd0. induction q as [|c cs IH]; intros a m Hc Ha E; [rewrite walk_nil in E; injection E as <-; left; now exists a|].
      apply Forall_cons_iff in Hc as [Hc Hcs]. cbn [cut] in E.
      destruct (has_zero c) eqn:Ez.
      - (* the last one *)
        rewrite walk_cons in E. destruct (fs (l0 ++ a)) as [[? ? ?|x|?|]|] eqn:Ef; try discriminate.
        destruct (null (c_str c)); [rewrite walk_nil in E; injection E as <-; left; now exists a|]. destruct x; cbn [negb] in E; [|discriminate].
        destruct (bytes_eqb _ dot); [rewrite walk_nil in E; injection E as <-; left; now exists a|].
        destruct (bytes_eqb _ dotdot).
        { rewrite walk_nil in E. injection E as <-. destruct a as [|y a _] using rev_ind.
          - rewrite app_nil_r. destruct l0 as [|z l0 _] using rev_ind; [left; now exists []|]. rewrite removelast_last. right.
            destruct (Hl l0 z [] eq_refl) as (_ & _ & _ & _ & _ & K & _). eauto.
          - left. rewrite app_assoc, removelast_last. now exists a. }
        rewrite <- app_assoc in E. destruct (fs (l0 ++ a ++ [c_str c])) as [[? ? ?|y|t|]|] eqn:Ee; try discriminate;
          try (rewrite walk_nil in E; injection E as <-; left; now eexists).
        exfalso. now apply (Hno (a ++ [c_str c]) t).
      - rewrite walk_cons in E. destruct (fs (l0 ++ a)) as [[? ? ?|x|?|]|] eqn:Ef; try discriminate.
        destruct (null c) eqn:En; [eapply IH; eauto; now rewrite Ef|]. destruct x; cbn [negb] in E; [|discriminate].
        destruct Hc as [->|(H1 & H2 & H3 & _)]; [easy|]. apply bytes_eqb_neq in H2, H3. rewrite H2, H3 in E.
        rewrite <- app_assoc in E. destruct (fs (l0 ++ a ++ [c])) as [[? ? ?|y|t|]|] eqn:Ee; try discriminate;
          try (apply (IH (a ++ [c]) m Hcs); [right; now destruct a|exact E]).
        exfalso. now apply (Hno (a ++ [c]) t). }
    apply (K q []); [exact Hq|left; now rewrite app_nil_r|now rewrite app_nil_r].
  Qed.
End Handle.
