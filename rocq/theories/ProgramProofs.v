(** The program's answers. *)
From Verif Require Import Base BaseLemmas Http FileSys Files SpecFiles FilesProofs FilesServe FilesText Router SpecRouter RouterProofs
  SpecTable SpecHpack SpecHpackEnc HpackEncProofs SpecConn ConnLemmas ConnTerm App AccessLog SpecApp AppProofs SpecProgram.

(** ** Static files *)
Lemma mime_any s t : type_of_name s t -> get_mime_type s = t.
Proof.
  intros [a e t' E H K|H].
  - exact (mime_dot s a e E H t' K).
  - destruct (last_dot s) as [K|(a & e & E & K)]; [unfold get_mime_type; now rewrite from_last_dot_none|].
    apply (mime_other s a e E K). intros t0. exact (H a e t0 E K).
Qed.
Lemma type_some s : type_of_name s (get_mime_type s).
Proof.
  destruct (last_dot s) as [K|(a & e & E & K)].
  - unfold get_mime_type. rewrite from_last_dot_none by auto. apply type_unknown. intros a e t E. exfalso. apply K. rewrite E. apply in_or_app. right. now left.
  - destruct (find (fun x => bytes_eqb (fst x) e) known_types) as [[e' t]|] eqn:F.
    + apply find_some in F as [F1 F2]. cbn [fst] in F2. apply bytes_eqb_eq in F2. subst e'. rewrite (mime_dot s a e E K t F1). exact (type_known s a e t E K F1).
    + assert (G : forall t, ~ In (e, t) known_types).
      { intros t Hin. apply (find_none _ _ F) in Hin. cbn [fst] in Hin. now apply bytes_eqb_neq in Hin. }
      rewrite (mime_other s a e E K G). apply type_unknown. intros a' e' t E' K' Hin. subst s.
      rewrite (dot_last_unique a e a' e' E' K K') in G. exact (G t Hin).
Qed.
Lemma type_known_types s t : type_of_name s t -> some_type t.
Proof. intros [a e t' _ _ K|_]; [right; apply in_map_iff; now exists (e, t')|now left]. Qed.

Lemma resolves_dec o l cs : (exists l', resolves (os_fs o) (os_links o) l cs l') \/ forall l', ~ resolves (os_fs o) (os_links o) l cs l'.
Proof.
  destruct (walk (os_fs o) (os_links o) l cs) as [l'|e] eqn:E.
  - left. exists l'. now apply walk_resolves.
  - right. intros l' H. apply walk_resolves in H. congruence.
Qed.
Lemma root_dec o root : ~ In 0 root -> (exists l0, root_at o root l0) \/ forall l0, ~ root_at o root l0.
Proof.
  intros Hz. destruct root as [|c root]; [right; now intros l0 [H _]|].
  destruct (resolves_dec o (if absolute (c :: root) then [] else os_cwd o) (elements (c :: root))) as [[l H]|H]; [|right; intros l0 (_ & _ & _ & K); exact (H l0 K)].
  destruct (os_fs o l) as [[? ? ?|x|?|]|] eqn:E; try (right; intros l0 (_ & _ & [x Hx] & K); apply walk_resolves in H, K; congruence).
  left. exists l. split; [easy|]. split; [auto|]. split; [eauto|exact H].
Qed.
Lemma below_dec (l0 l : location) : below l0 l \/ ~ below l0 l.
Proof.
  destruct (within l0 l) eqn:E; [left; now apply within_below|right; intros H; apply within_below in H; congruence].
Qed.
Lemma file_response_cases o s head : file_response o s head = Response 404 [] [] \/
  exists l io b, os_fs o l = Some (EFile true io b) /\ file_content head io (get_mime_type s) b (file_response o s head).
Proof.
  unfold file_response, is_readable, get_response, head_response, read_file, get_file_size.
  destruct (resolve o s) as [l|e]; [|now left]. destruct (os_fs o l) as [[[] io b|?|?|]|] eqn:El; try now left.
  right. exists l, io, b. split; [exact El|]. destruct head; cbn [file_content].
  - exists (to_string (lenZ b)). split; [apply to_string_spec; unfold lenZ; lia|reflexivity].
  - now destruct io.
Qed.
(** What is sent for a path read as text. *)
Lemma text_response o q head : clean q -> (forall r io b, os_fs o [] <> Some (EFile r io b)) ->
  (forall l, resolve o (path_string q) = At l <-> stands_at o q l) ->
  (file_response o (path_string q) head = Response 404 [] [] /\ forall l io b, stands_at o q l -> os_fs o l <> Some (EFile true io b)) \/
  exists (d : list bytes) (n : bytes) l io b, q = d ++ [n] /\ stands_at o q l /\ os_fs o l = Some (EFile true io b) /\
    file_content head io (get_mime_type n) b (file_response o (path_string q) head).
Proof.
  intros Hc H0 Hst. unfold file_response, is_readable.
  destruct (resolve o (path_string q)) as [l|e] eqn:E.
  2:{ left. split; [reflexivity|]. intros l io b K. apply Hst in K. congruence. }
  assert (Hs : stands_at o q l) by now apply Hst.
  assert (Hn : forall l' io b, stands_at o q l' -> os_fs o l' = Some (EFile true io b) -> os_fs o l = Some (EFile true io b)).
  { intros l' io b K1 K2. apply Hst in K1. congruence. }
  destruct (os_fs o l) as [[[] io b|?|?|]|] eqn:El; try (left; split; [reflexivity|]; intros l' io' b' K1 K2; specialize (Hn l' io' b' K1 K2); congruence).
  right. destruct q as [|n d _] using rev_ind.
  { exfalso. change (path_string []) with [SLASH] in E. cbn in E. rewrite walk_nil in E. injection E as <-. exact (H0 _ _ _ El). }
  exists d, n, l, io, b. split; [reflexivity|]. split; [exact Hs|]. split; [exact El|].
  assert (Hsl : ~ In SLASH n) by (apply clean_parts in Hc; apply Forall_app in Hc as [_ Hc]; now apply Forall_cons_iff in Hc as [Hc _]).
  pose proof (mime_name d n _ Hsl (type_some n) : get_mime_type (path_string (d ++ [n])) = _) as M.
  unfold head_response, get_response, read_file, get_file_size. unfold path, location, bytes in *. rewrite M, E, El.
  destruct head; cbn [file_content]; [|now destruct io].
  exists (to_string (lenZ b)). split; [apply to_string_spec; unfold lenZ; lia|reflexivity].
Qed.
Lemma file_answered o url root p head r : real_place (os_fs o) (os_cwd o) -> ~ In 0 root -> static_matches (Static url root) p = true ->
  static_handle o (Static url root) p head = Ret r -> file_answer o url root p head r.
Proof.
  intros Hc Hz Hm E. destruct (asks_some (Static url root) p Hm) as [rel Ha].
  destruct (root_dec o root Hz) as [[l0 Hr]|Hn].
  2:{ rewrite (no_root o Hc (Static url root) p head rel Hz Ha Hn) in E. injection E as <-. now apply file_no_root. }
  destruct (resolves_dec o (if absolute rel then [] else l0) (elements (c_str rel))) as [[l Hl]|Hl].
  - change (leads_to o l0 rel l) in Hl. destruct (below_dec l0 l) as [Hb|Hb].
    + destruct (found_inside o Hc (Static url root) p head rel l0 l Ha Hr Hl Hb) as (r' & E' & R). rewrite E in E'. injection E' as <-.
      destruct (os_fs o l) as [[[] io b|?|?|]|] eqn:El;
        try (subst r; apply (file_unreadable o url root p head l0 rel l); auto; intros io' b' K; congruence).
      destruct l as [|name d _] using rev_ind.
      { exfalso. destruct Hb as [rest Hb]. symmetry in Hb. apply app_eq_nil in Hb as [-> _]. destruct Hr as (_ & _ & [x Hx] & _). congruence. }
      assert (Hs : ~ In SLASH name).
      { destruct (root_status o Hc _ l0 Hr) as (_ & _ & _ & _ & Hl0). apply (leads_real o l0 rel _ Hl0) in Hl.
        now destruct (Hl d name [] eq_refl) as (_ & _ & _ & K & _). }
      apply (file_found o url root p head l0 rel d name io b (get_mime_type name)); auto; [apply type_some|].
      pose proof (mime_name d name _ Hs (type_some name) : get_mime_type (path_string (d ++ [name])) = _) as M.
      unfold path, location, bytes in *. rewrite M in R. destruct head; cbn [file_content]; [|exact R].
      exists (to_string (lenZ b)). split; [apply to_string_spec; unfold lenZ; lia|exact R].
    + rewrite (found_outside o Hc (Static url root) p head rel l0 l Ha Hr Hl Hb) in E. injection E as <-. now apply (file_outside o url root p head l0 rel l).
  - change (forall l, ~ leads_to o l0 rel l) in Hl. rewrite (handle_eq o (Static url root) p head rel Ha) in E. injection E as E. cbn [st_root] in E.
    destruct (missing_path o Hc root l0 rel Hr Hl) as [[Es Ht]|(a & c & b & L & Ea & HL & Ht & Es)].
    { rewrite Es in E. subst r. exact (file_barred o url root p head l0 rel Hr Ha Hl Ht). }
    destruct (root_status o Hc _ l0 Hr) as (_ & _ & _ & _ & Hl0). pose proof Hr as (_ & _ & Hx & _).
    destruct (stands_resolve o L c b l0 rel a Hl0 (root_dir o l0 Hl0 Hx) HL Ea) as [Hcl Hst].
    set (q := tidy (L ++ c :: b)) in *. clearbody q.
    destruct (within l0 q) eqn:Ew; rewrite Es in E; subst r.
    2:{ apply (file_text_outside o url root p head l0 rel q Hr Ha Ht). intros K. apply within_below in K. congruence. }
    apply within_below in Ew.
    destruct (text_response o q head Hcl ltac:(destruct (root_dir o l0 Hl0 Hx); congruence) Hst) as [[-> K]|(d & n & l & io & b' & -> & H1 & H2 & H3)].
    + exact (file_text_missing o url root p head l0 rel q Hr Ha Ht Ew K).
    + exact (file_text_found o url root p head l0 rel d n l io b' _ _ Hr Ha Ht Ew H1 H2 (type_some n) H3).
Qed.

(** The answer is determined. *)
Lemma asks_unique url p rel rel' : asks url p rel -> asks url p rel' -> rel = rel'.
Proof.
  intros H H'. pose proof (asks_path (Static url []) p rel H) as E. rewrite (asks_path (Static url []) p rel' H') in E. now injection E as ->.
Qed.
Lemma content_unique head io t t' name b r r' : type_of_name name t -> type_of_name name t' ->
  file_content head io t b r -> file_content head io t' b r' -> r = r'.
Proof.
  intros Ht Ht'. rewrite <- (mime_any _ _ Ht), <- (mime_any _ _ Ht'). unfold file_content. destruct head; [|destruct io; congruence].
  intros (n & Hn & ->) (n' & Hn' & ->). now rewrite (decimal_unique _ _ _ Hn Hn').
Qed.
Lemma file_sound o url root p head r : real_place (os_fs o) (os_cwd o) -> ~ In 0 root -> static_matches (Static url root) p = true ->
  file_answer o url root p head r -> static_handle o (Static url root) p head = Ret r.
Proof.
  intros Hc Hz Hm H.
  assert (HT : forall l0 rel q, root_at o root l0 -> asks url p rel -> textual o l0 rel q ->
    static_handle o (Static url root) p head = Ret (if within l0 q then file_response o (path_string q) head else Response 403 [] []) /\
    clean q /\ (forall r io b, os_fs o [] <> Some (EFile r io b)) /\ (forall l, resolve o (path_string q) = At l <-> stands_at o q l)).
  { intros l0 rel q R A Hq. destruct (root_status o Hc _ l0 R) as (_ & _ & _ & _ & Hl0). pose proof R as (_ & _ & Hx & _).
    destruct (missing_path o Hc root l0 rel R) as [[_ K]|(a & c & b & L & Ea & HL & Ht & Es)].
    - intros l. exact (textual_nowhere o l0 rel q l Hl0 Hx Hq).
    - exfalso. exact (K q Hq).
    - pose proof (textual_unique o l0 rel _ _ Hq Ht) as E.
      destruct (stands_resolve o L c b l0 rel a Hl0 (root_dir o l0 Hl0 Hx) HL Ea) as [Hcl Hst]. rewrite <- E in *. clear E.
      rewrite (handle_eq o (Static url root) p head rel A). cbn [st_root]. rewrite Es. split; [now destruct (within l0 q)|].
      split; [exact Hcl|]. split; [|exact Hst]. destruct (root_dir o l0 Hl0 Hx). congruence. }
  destruct H as [K|l1 rel l R A L B|l1 rel d n io b t r R A L B F Ty C|l1 rel l R A L B F|l1 rel R A L N|l1 rel q R A Q B
    |l1 rel q n l io b t r R A Q B S F Ty C|l1 rel q R A Q B N].
  - destruct (asks_some (Static url root) p Hm) as [rel A]. exact (no_root o Hc (Static url root) p head rel Hz A K).
  - exact (found_outside o Hc (Static url root) p head rel l1 l A R L B).
  - destruct (found_inside o Hc (Static url root) p head rel l1 _ A R L B) as (r' & E & G). rewrite E. f_equal.
    assert (Hs : ~ In SLASH n).
    { destruct (root_status o Hc _ l1 R) as (_ & _ & _ & _ & Hl0). apply (leads_real o l1 rel _ Hl0) in L.
      now destruct (L d n [] eq_refl) as (_ & _ & _ & K & _). }
    pose proof (mime_name d n _ Hs (type_some n) : get_mime_type (path_string (d ++ [n])) = _) as M.
    unfold path, location, bytes in *. rewrite F, M in G.
    apply (content_unique head io _ _ n b r' r (type_some n) Ty); [|exact C]. unfold file_content. destruct head; [|exact G].
    exists (to_string (lenZ b)). split; [apply to_string_spec; unfold lenZ; lia|exact G].
  - destruct (found_inside o Hc (Static url root) p head rel l1 l A R L B) as (r' & E & G). rewrite E. f_equal.
    destruct (os_fs o l) as [[[] io b|?|?|]|]; try exact G. exfalso. now apply (F io b).
  - rewrite (handle_eq o (Static url root) p head rel A). cbn [st_root].
    destruct (missing_path o Hc root l1 rel R L) as [[-> _]|(a & c & b & L' & _ & _ & K & _)]; [reflexivity|exfalso; exact (N _ K)].
  - destruct (HT l1 rel q R A Q) as [-> _]. destruct (within l1 q) eqn:E; [|reflexivity]. apply within_below in E. easy.
  - destruct (HT l1 rel _ R A Q) as (-> & Hcl & H0 & Hst). apply within_below in B. rewrite B. f_equal.
    destruct (text_response o _ head Hcl H0 Hst) as [[_ K]|(d' & n' & l' & io' & b' & E & S' & F' & C')]; [exfalso; exact (K l io b S F)|].
    apply app_inj_tail in E as [_ <-]. apply Hst in S, S'. pose proof (eq_trans (eq_sym S) S') as X. injection X as <-.
    pose proof (eq_trans (eq_sym F) F') as X. injection X as <- <-.
    exact (content_unique head io _ _ n b _ _ (type_some n) Ty C' C).
  - destruct (HT l1 rel _ R A Q) as (-> & Hcl & H0 & Hst). apply within_below in B. rewrite B. f_equal.
    destruct (text_response o _ head Hcl H0 Hst) as [[-> _]|(d' & n' & l' & io' & b' & E & S' & F' & C')]; [reflexivity|].
    exfalso. exact (N l' io' b' S' F').
Qed.
Lemma file_unique o url root p head r r' : real_place (os_fs o) (os_cwd o) -> ~ In 0 root -> static_matches (Static url root) p = true ->
  file_answer o url root p head r -> file_answer o url root p head r' -> r = r'.
Proof.
  intros Hc Hz Hm H H'. apply (file_sound o url root p head r Hc Hz Hm) in H. apply (file_sound o url root p head r' Hc Hz Hm) in H'. congruence.
Qed.

(** ** The program *)
Definition same_files (w w' : world) : Prop := w_os w' = w_os w /\ w_no_new_privs w' = w_no_new_privs w.
Section Program.
  Variable page : stats -> Z -> bytes.
  Variable a : args.
  Notation regs := (main_registrations page a).
  Notation first w := (first_answer page a (w_os w) (w_no_new_privs w)).

  Lemma repeat_spec n c : 0 <= n -> lenZ (repeat c (Z.to_nat n)) = n /\ Forall (fun x : Z => x = c) (repeat c (Z.to_nat n)).
  Proof.
    intros H. split; [unfold lenZ; rewrite repeat_length; lia|]. apply Forall_forall. intros x Hx. now apply repeat_spec in Hx.
  Qed.
  Lemma test_paths nnp p : (exists r, test_answer nnp p r) <-> In p (map str ["/_tests/ok"; "/_tests/no_content"; "/_tests/no_new_privs"; "/_tests/medium_body"; "/_tests/large_body"]%string).
  Proof.
    split.
    - intros [r H]. destruct H; cbn [map In]; auto 6.
    - cbn [map In]. intros [<-|[<-|[<-|[<-|[<-|[]]]]]]; eexists; [apply test_ok|apply test_no_content|apply test_privs|apply test_medium|apply test_large].
      + exact (proj1 (repeat_spec 131072 65 ltac:(lia))).
      + exact (proj2 (repeat_spec 131072 65 ltac:(lia))).
      + exact (proj1 (repeat_spec 2097152 65 ltac:(lia))).
      + exact (proj2 (repeat_spec 2097152 65 ltac:(lia))).
  Qed.
  (** What the program's own routes answer. *)
  Definition answers_first (x : registration world) : Prop :=
    match x with
    | AddRoute p m h => (forall nnp, own_route a nnp p m) /\ forall rq w, exists w' r, h rq w = (w', Some r) /\ first w p m r /\ same_files w w'
    | AddStatic s => a_static_map a = [st_prefix s; st_root s]
    | AddMiddleware _ => True
    end.
  Lemma registered : Forall answers_first regs.
  Proof.
    unfold main_registrations. apply Forall_app. split; [|apply Forall_app; split; [|apply Forall_app; split]].
    - destruct (a_under_test a) eqn:E; [|constructor]. unfold test_routes.
      assert (G : forall p f, (forall w, test_answer (w_no_new_privs w) p (f w)) -> answers_first (AddRoute p (str "GET") (handler_of f))).
      { intros p f H. split.
        - intros nnp. split; [reflexivity|]. right. split; [exact E|]. apply test_paths.
          apply (test_paths true). destruct (test_paths true p) as [_ K]. apply K. clear K.
          apply (test_paths (w_no_new_privs (World (OS (fun _ => None) [] 0) no_stats (fun _ => 0) 0 true))). eexists. apply H.
        - intros rq w. exists w, (f w). split; [reflexivity|]. split; [|split; reflexivity]. now apply first_test. }
      apply Forall_cons; [apply G; intros w; apply test_ok|].
      apply Forall_cons; [apply G; intros w; apply test_no_content|].
      apply Forall_cons; [apply G; intros w; destruct (w_no_new_privs w) eqn:En; [exact (test_privs true)|exact (test_privs false)]|].
      apply Forall_cons; [apply G; intros w; apply test_medium; apply (repeat_spec 131072 65); lia|].
      apply Forall_cons; [apply G; intros w; apply test_large; apply (repeat_spec 2097152 65); lia|]. apply Forall_nil.
    - destruct (a_status_page a) eqn:E; [|constructor]. unfold status_page. apply Forall_cons; [exact I|]. apply Forall_cons; [|apply Forall_nil].
      split.
      + intros nnp. split; [reflexivity|]. left. auto.
      + intros rq w. unfold status_handler. eexists _, _. split; [reflexivity|]. split; [|split; reflexivity]. now apply first_status.
    - destruct (a_static_map a) as [|u [|r [|]]] eqn:E; try constructor; [exact E|constructor].
    - destruct (a_status_404_file_path a); constructor; [exact I|constructor].
  Qed.
  Lemma own_routes nnp p m : own_route a nnp p m -> exists x, In x regs /\ is_route world p m x.
  Proof.
    intros [-> [[E ->]|[E H]]].
    - eexists. split; [|eexists; reflexivity]. unfold main_registrations. apply in_or_app. right. apply in_or_app. left. rewrite E. right. left. reflexivity.
    - apply test_paths in H. assert (K : exists h, In (AddRoute p (str "GET") h) (test_routes : list (registration world))).
      { unfold test_routes. cbn [map In] in H.
        destruct H as [<-|[<-|[<-|[<-|[<-|[]]]]]]; eexists; [left|right; left|right; right; left|right; right; right; left|right; right; right; right; left]; reflexivity. }
      destruct K as [h K]. exists (AddRoute p (str "GET") h). split; [|now exists h]. unfold main_registrations. apply in_or_app. left. now rewrite E.
  Qed.
  Lemma target_first h d p m : chosen world regs p m d -> answers world w_os p m d h ->
    forall rq w, args_ok a (w_os w) -> exists w' r, h rq w = (w', Some r) /\ first w p m r /\ same_files w w'.
  Proof.
    intros Hc Ha rq w (Hcwd & _ & Hz). pose proof registered as HR.
    destruct Ha as [h|s h H|h H].
    - inversion Hc as [x y h' E _| |]; subst. rewrite E in HR. apply Forall_app in HR as [_ HR]. apply Forall_cons_iff in HR as [HR _]. apply HR.
    - inversion Hc as [|x y s' rest Hn Hm E Ep _|]; subst s'. rewrite E in HR. apply Forall_app in HR as [_ HR]. apply Forall_cons_iff in HR as [HR _]. cbn in HR.
      destruct (H rq w) as (r & Es & Eh). exists w, r. split; [exact Eh|]. split; [|split; reflexivity].
      destruct s as [url root]. cbn [st_prefix st_root] in *. apply (first_file page a (w_os w) (w_no_new_privs w) p m url root r).
      + intros K. destruct (own_routes _ _ _ K) as (z & Z1 & Z2). exact (Hn z Z1 Z2).
      + split; [exact HR|]. split; [exact Hm|]. now exists rest.
      + apply file_answered; auto; [exact (Hz url root HR)|]. rewrite Ep. apply starts_with_app.
    - inversion Hc as [| |Hn Hor]; subst. eexists _, _. split; [exact (H rq w)|]. split; [|split; reflexivity]. apply first_nothing.
      + intros K. destruct (own_routes _ _ _ K) as (z & Z1 & Z2). exact (Hn z Z1 Z2).
      + intros url root (E & Hm & rest & Ep). destruct Hor as [[N1 N2]|Hor]; [destruct Hm; contradiction|].
        apply (Hor (AddStatic (Static url root))); [|exists (Static url root), rest; auto].
        unfold main_registrations. apply in_or_app. right. apply in_or_app. right. apply in_or_app. left. rewrite E. now left.
  Qed.

  Lemma own_first rq w : a_status_404_file_path a = [] -> args_ok a (w_os w) ->
    exists w' r, main_app page a rq w = (w', Answers r) /\ first w (rq_path rq) (rq_method rq) r /\ same_files w w'.
  Proof.
    intros Hf Ha. unfold main_app, dispatch. destruct (target_spec world w_os regs (rq_path rq) (rq_method rq)) as (d & h & Hc & Hans & ->).
    rewrite main_chain by exact Hf. pose proof (target_first h d _ _ Hc Hans rq) as K. destruct (a_status_page a).
    - unfold stats_middleware. cbv zeta. cbn [read_clock].
      match goal with |- context [h rq ?x] => destruct (K x Ha) as (w3 & r & E & K1 & K2 & K3); rewrite E end.
      eexists _, _. split; [reflexivity|]. split; [exact K1|]. split; [exact K2|exact K3].
    - destruct (K w Ha) as (w3 & r & E & K1 & K2). rewrite E. eexists _, _. split; [reflexivity|]. auto.
  Qed.
End Program.

Lemma first_without page a o nnp p m r : first_answer page (without_404 a) o nnp p m r -> first_answer page a o nnp p m r.
Proof.
  intros [st now H1 H2 H3|r' H1 H2 H3|url root r' H1 H2 H3|H1 H2].
  - now apply first_status.
  - now apply first_test.
  - now apply (first_file page a o nnp p m url root).
  - now apply first_nothing.
Qed.
Section Answer.
  Variable page : stats -> Z -> bytes.
  Variable a : args.
  Notation answer w := (program_answer page a (w_os w) (w_no_new_privs w)).
  Lemma readable_dec o path : ~ In 0 path ->
    (exists l b, readable o path l b) \/ ((forall l b, ~ readable o path l b) /\ rs_headers (file_response o path false) = [] /\ rs_body (file_response o path false) = []).
  Proof.
    intros Hz. destruct path as [|c q].
    { right. split; [now intros l b [K _]|]. split; reflexivity. }
    unfold file_response, is_readable, get_response, read_file, readable, resolve. rewrite c_str_id by exact Hz.
    destruct (walk (os_fs o) (os_links o) (if absolute (c :: q) then [] else os_cwd o) (elements (c :: q))) as [l|e] eqn:E.
    - destruct (os_fs o l) as [[[] [] b|?|?|]|] eqn:El; [|right; split; [|split; reflexivity]; intros l' b' (_ & K & K'); apply walk_resolves in K; rewrite K in E; injection E as <-; congruence..].
      left. exists l, b. split; [discriminate|]. split; [now apply walk_resolves|exact El].
    - right. split; [|split; reflexivity]. intros l b (_ & K & _). apply walk_resolves in K. congruence.
  Qed.
  Lemma program_answers rq w : args_ok a (w_os w) ->
    exists w' r, main_app page a rq w = (w', Answers r) /\ answer w (rq_path rq) (rq_method rq) r /\ same_files w w'.
  Proof.
    intros Ha. destruct (list_eq_dec Z.eq_dec (a_status_404_file_path a) []) as [Hf|Hf].
    { destruct (own_first page a rq w Hf Ha) as (w' & r & E & H & S). exists w', r. split; [exact E|]. split; [|exact S]. apply program_same; auto. }
    assert (Ha' : args_ok (without_404 a) (w_os w)) by (destruct Ha as (H1 & H2 & H3); split; [exact H1|split; [now intros []|exact H3]]).
    destruct (own_first page (without_404 a) rq w eq_refl Ha') as (w' & r & E & H & S).
    eexists _, _. split; [exact (page_shown page a rq w w' r Hf E)|]. split; [|exact S]. apply first_without in H.
    destruct (Z.eqb_spec (rs_status r) 404) as [Es|Es]; [|apply program_same; auto]. cbv zeta. destruct S as [-> _].
    destruct (readable_dec (w_os w) (a_status_404_file_path a)) as [(l & b & K)|(K & K1 & K2)]; [apply Ha| |].
    - rewrite (page_file (w_os w) (a_status_404_file_path a) l b).
      2:{ destruct K as (K1 & K2 & K3). split; [exact K1|]. split; [apply Ha|]. split; assumption. }
      cbn [rs_headers rs_body]. apply (program_page _ _ _ _ _ _ r l b); auto. apply type_some.
    - rewrite K1, K2. apply (program_no_page _ _ _ _ _ _ r); auto.
  Qed.
End Answer.

(** ** Sizes *)
Lemma decimal_digits s n : decimal s n -> n < 10 ^ 20 -> lenZ s <= 20.
Proof.
  intros (Hd & <- & Hl) Hn. destruct s as [|d s]; [easy|]. destruct (Z.eq_dec d 48) as [->|Hd0]; [rewrite (Hl eq_refl); cbn; lia|].
  apply Forall_cons_iff in Hd as [H0 Hd]. cbn [fold_left] in Hn.
  assert (G : forall l v, Forall (fun x => 48 <= x <= 57) l -> 1 <= v -> v * 10 ^ lenZ l <= fold_left (fun v d => 10 * v + (d - 48)) l v).
  { clear. induction l as [|x l IH]; intros v H Hv; cbn [fold_left]; [change (lenZ []) with 0; lia|].
    apply Forall_cons_iff in H as [Hx H]. rewrite lenZ_cons. rewrite Z.pow_add_r by (unfold lenZ; lia). specialize (IH (10 * v + (x - 48)) H ltac:(lia)).
    assert (0 < 10 ^ lenZ l) by (apply Z.pow_pos_nonneg; unfold lenZ; lia). nia. }
  specialize (G s (10 * 0 + (d - 48)) Hd ltac:(lia)). rewrite lenZ_cons. destruct (Z_lt_ge_dec 19 (lenZ s)) as [K|K]; [|lia]. exfalso.
  assert (10 ^ 20 <= 10 ^ lenZ s) by (apply Z.pow_le_mono_r; lia). nia.
Qed.

Definition length_text (n : bytes) : Prop := exists x, decimal n x /\ 0 <= x < 2 ^ 64.
Inductive program_fields : list header -> Prop :=
| fields_none : program_fields []
| fields_type : forall t, some_type t -> program_fields [Hdr (str "content-type") t]
| fields_head : forall n t, length_text n -> some_type t -> program_fields [Hdr (str "content-length") n; Hdr (str "content-type") t]
| fields_status : program_fields [Hdr (str "content-type") (str "text/html; charset=utf-8"); Hdr (str "cache-control") (str "no-store")].
Definition statuses : list Z := [200; 204; 403; 404; 500].
Definition program_shape (r : response) : Prop :=
  In (rs_status r) statuses /\ lenZ (rs_body r) < 2 ^ 64 /\ program_fields (rs_headers r).

Ltac stat := cbn [In statuses rs_status]; auto 8.
Lemma content_shape o head io t b r l : (forall l r io b, os_fs o l = Some (EFile r io b) -> lenZ b < 2 ^ 64) ->
  os_fs o l = Some (EFile true io b) -> some_type t -> file_content head io t b r -> program_shape r.
Proof.
  intros Hf E Ht H. pose proof (Hf _ _ _ _ E) as Hb. unfold file_content in H. destruct head.
  - destruct H as (n & Hn & ->). split; [stat|]. split; [reflexivity|]. apply fields_head; [|exact Ht]. exists (lenZ b). split; [exact Hn|]. unfold lenZ in *; lia.
  - destruct io; subst r; (split; [stat|split]); [exact Hb|now apply fields_type|reflexivity|apply fields_none].
Qed.
Lemma small_shape s : In s statuses -> program_shape (Response s [] []).
Proof. intros H. split; [exact H|]. split; [reflexivity|apply fields_none]. Qed.
Lemma first_shape page a o nnp p m r : files_fit page o -> first_answer page a o nnp p m r -> program_shape r.
Proof.
  intros [Hp Hf] [st now H1 H2 H3|r' H1 H2 H3|url root r' H1 H2 H3|H1 H2].
  - split; [stat|]. split; [apply Hp|apply fields_status].
  - destruct H3 as [| | |b Hl _|b Hl _]; try (apply small_shape; stat).
    + apply small_shape. destruct nnp; stat.
    + split; [stat|]. split; [cbn [rs_body]; rewrite Hl; reflexivity|apply fields_none].
    + split; [stat|]. split; [cbn [rs_body]; rewrite Hl; reflexivity|apply fields_none].
  - destruct H3 as [K|l0 rel l _ _ _ _|l0 rel d name io b t r' _ _ _ _ K1 K2 K3|l0 rel l _ _ _ _ _|l0 rel _ _ _ _|l0 rel q _ _ _ _
      |l0 rel q name l io b t r' _ _ _ _ _ K1 K2 K3|l0 rel q _ _ _ _ _]; try (apply small_shape; stat).
    + exact (content_shape o _ io t b r' _ Hf K1 (type_known_types _ _ K2) K3).
    + exact (content_shape o _ io t b r' _ Hf K1 (type_known_types _ _ K2) K3).
  - apply small_shape. stat.
Qed.
Lemma answer_shape page a o nnp p m r : files_fit page o -> program_answer page a o nnp p m r -> program_shape r.
Proof.
  intros Hf [r' H _|r' l b t _ _ _ (_ & _ & K) Ht|r' _ _ _ _].
  - exact (first_shape _ _ _ _ _ _ _ Hf H).
  - split; [stat|]. split; [exact (proj2 Hf _ _ _ _ K)|]. apply fields_type. exact (type_known_types _ _ Ht).
  - apply small_shape. stat.
Qed.

(** ** Fields that are sent *)
Definition all_types : list bytes := nodup (list_eq_dec Z.eq_dec) (str "application/octet-stream" :: map snd known_types).
Lemma some_types t : some_type t <-> In t all_types.
Proof. unfold all_types, some_type. rewrite nodup_In. cbn [In]. split; (intros [H|H]; [left; now symmetry|now right]). Qed.
Definition fixed_fields : list header :=
  map (fun s => Hdr (str ":status") (str s)) ["200"; "204"; "403"; "404"; "500"]%string ++
  map (Hdr (str "content-type")) all_types ++
  [Hdr (str "cache-control") (str "no-store"); Hdr (str "server") (str "ion"); Hdr (str "x-powered-by") (str "ion")].
Definition lengths (L : list bytes) : list header := map (Hdr (str "content-length")) L.
(** The field is fixed, or a length. *)
Definition program_field (h : header) : Prop :=
  In h fixed_fields \/ exists n, length_text n /\ h = Hdr (str "content-length") n.

Lemma shape_fields r : program_shape r -> Forall program_field (rs_headers r).
Proof.
  intros (_ & _ & H). destruct H as [|t Ht|n t Hn Ht|].
  - constructor.
  - constructor; [|constructor]. left. apply in_or_app. right. apply in_or_app. left. apply in_map. now apply some_types.
  - constructor; [right; now exists n|]. constructor; [|constructor]. left. apply in_or_app. right. apply in_or_app. left. apply in_map. now apply some_types.
  - constructor; [|constructor; [|constructor]]; left; apply in_or_app; right; apply in_or_app; [left; apply in_map, some_types; right; now left|right; now left].
Qed.
Lemma status_text s n : In n statuses -> decimal s n -> In (Hdr (str ":status") s) fixed_fields.
Proof.
  intros H Hs. apply in_or_app. left.
  assert (G : forall x, decimal (str x) n -> In x ["200"; "204"; "403"; "404"; "500"]%string ->
    In (Hdr (str ":status") s) (map (fun s => Hdr (str ":status") (str s)) ["200"; "204"; "403"; "404"; "500"]%string)).
  { intros x Hx Hin. rewrite (decimal_unique _ _ _ Hs Hx). now apply (in_map (fun s => Hdr (str ":status") (str s))). }
  cbn [In statuses] in H. destruct H as [<-|[<-|[<-|[<-|[<-|[]]]]]].
  - apply (G "200"%string); [exact (proj1 (to_string_spec 200 ltac:(lia)))|cbn [In]; auto 6].
  - apply (G "204"%string); [exact (proj1 (to_string_spec 204 ltac:(lia)))|cbn [In]; auto 6].
  - apply (G "403"%string); [exact (proj1 (to_string_spec 403 ltac:(lia)))|cbn [In]; auto 6].
  - apply (G "404"%string); [exact (proj1 (to_string_spec 404 ltac:(lia)))|cbn [In]; auto 6].
  - apply (G "500"%string); [exact (proj1 (to_string_spec 500 ltac:(lia)))|cbn [In]; auto 6].
Qed.
Lemma sent_fields r fields : program_shape r -> response_fields r fields -> Forall program_field fields /\ (length fields <= 6)%nat.
Proof.
  intros Hr (status & len & -> & Hs & Hl0 & Hl1). pose proof (shape_fields r Hr) as H. destruct Hr as (R1 & R2 & R3).
  assert (Hl : Forall program_field len /\ (length len <= 1)%nat).
  { destruct (rs_body r) as [|c b] eqn:E; [rewrite Hl0 by auto; split; [constructor|cbn; lia]|].
    destruct Hl1 as (n & Hn & ->); [discriminate|]. split; [|cbn; lia]. constructor; [|constructor]. right. exists n. split; [|reflexivity].
    exists (lenZ (c :: b)). split; [exact Hn|]. unfold lenZ in *; lia. }
  assert (Hh : (length (rs_headers r) <= 2)%nat) by (destruct R3; cbn; lia). destruct Hl as [Hl Hn]. split.
  - apply Forall_cons; [left; eapply status_text; eauto|]. apply Forall_app. split; [exact H|]. apply Forall_app. split; [exact Hl|].
    constructor; [|constructor; [|constructor]]; left; apply in_or_app; right; apply in_or_app; right; cbn [In]; auto.
  - cbn [length]. rewrite !app_length. cbn [length]. lia.
Qed.
Lemma fixed_small : Forall (fun h => lenZ (h_name h) <= 13 /\ lenZ (h_value h) <= 37 /\ header_ok true h) fixed_fields.
Proof.
  assert (K : forallb (fun h => (lenZ (h_name h) <=? 13) && (lenZ (h_value h) <=? 37) && header_okb true h) fixed_fields = true) by (vm_compute; reflexivity).
  rewrite forallb_forall in K. apply Forall_forall. intros h Hh. apply K in Hh. apply andb_prop in Hh as [Hh H3]. apply andb_prop in Hh as [H1 H2].
  split; [lia|]. split; [lia|]. unfold header_okb in H3. apply andb_prop in H3 as [H3 H4]. split; now apply string_okb_ok.
Qed.
Lemma header_ok_weak cs h : header_ok true h -> header_ok cs h.
Proof. intros [(A & B & C) (D & E & F)]. split; split; auto. Qed.
Lemma field_small h : program_field h -> lenZ (h_name h) <= 14 /\ lenZ (h_value h) <= 37 /\ header_ok true h.
Proof.
  intros [H|(n & (x & Hx & Hn) & ->)].
  - pose proof fixed_small as K. rewrite Forall_forall in K. destruct (K h H) as (A & B & C). split; [lia|auto].
  - pose proof (decimal_digits n x Hx ltac:(lia)) as K. cbn [h_name h_value]. split; [cbn; lia|]. split; [lia|]. split.
    + apply string_okb_ok. vm_compute. reflexivity.
    + destruct Hx as (Hd & _). cbn [h_value]. split; [|split; [lia|intros _; right]]; [unfold all_bytes, is_byte|]; eapply Forall_impl; try exact Hd; cbn beta; lia.
Qed.
Lemma shape_ok cs r : program_shape r -> answer_ok cs r.
Proof.
  intros H. pose proof (shape_fields r H) as K. destruct H as (H1 & H2 & _). split; [|split; [exact H2|]].
  - cbn [In statuses] in H1. lia.
  - eapply Forall_impl; [|exact K]. intros h Hh. apply header_ok_weak. apply (field_small h Hh).
Qed.
Lemma fields_bound fields : Forall program_field fields -> block_bound fields <= 220 * Z.of_nat (length fields).
Proof.
  induction 1 as [|h fields H _ IH]; [cbn; lia|]. unfold block_bound in *. cbn [fold_right length]. destruct (field_small h H) as (A & B & _). lia.
Qed.

(** A table with room for the fixed fields and 39 lengths. *)
Lemma nodup_length (L : list bytes) : (length (nodup (list_eq_dec Z.eq_dec) L) <= length L)%nat.
Proof. apply NoDup_incl_length; [apply NoDup_nodup|]. intros x. apply nodup_In. Qed.
Definition with_lengths (L : list bytes) : list header := fixed_fields ++ lengths (nodup (list_eq_dec Z.eq_dec) L).
Lemma fixed_names : forallb (fun h => negb (bytes_eqb (h_name h) (str "content-length"))) fixed_fields = true.
Proof. vm_compute. reflexivity. Qed.
Definition header_dec (x y : header) : {x = y} + {x <> y}.
Proof. decide equality; apply (list_eq_dec Z.eq_dec). Defined.
Lemma fixed_nodup : NoDup fixed_fields.
Proof.
  assert (K : nodup header_dec fixed_fields = fixed_fields) by (vm_compute; reflexivity). rewrite <- K. apply NoDup_nodup.
Qed.
Lemma fixed_one_value : forall x y, In x fixed_fields -> In y fixed_fields -> h_name x = h_name y -> ~ static_name (h_name x) -> x = y.
Proof.
  assert (K : forallb (fun x => existsb (fun h => bytes_eqb (h_name h) (h_name x)) rfc_static || bytes_eqb (h_name x) (str "x-powered-by") && bytes_eqb (h_value x) (str "ion")) fixed_fields = true)
    by (vm_compute; reflexivity).
  assert (G : forall x, In x fixed_fields -> ~ static_name (h_name x) -> x = Hdr (str "x-powered-by") (str "ion")).
  { intros x Hx N. rewrite forallb_forall in K. apply K in Hx. apply orb_prop in Hx as [Hx|Hx].
    - exfalso. apply N. apply existsb_exists in Hx as (h & Hh & E). apply bytes_eqb_eq in E. now exists h.
    - apply andb_prop in Hx as [H1 H2]. apply bytes_eqb_eq in H1, H2. destruct x as [n v]. cbn [h_name h_value] in H1, H2. now rewrite H1, H2. }
  intros x y Hx Hy E N. rewrite (G x Hx N). symmetry. apply G; [exact Hy|]. now rewrite <- E.
Qed.
Lemma length_name_static : static_name (str "content-length").
Proof.
  assert (K : existsb (fun h => bytes_eqb (h_name h) (str "content-length")) rfc_static = true) by (vm_compute; reflexivity).
  apply existsb_exists in K as (h & Hh & E). apply bytes_eqb_eq in E. now exists h.
Qed.
Lemma with_lengths_fit L : (length L <= 39)%nat -> Forall (fun n => lenZ n <= 20) L ->
  (length (with_lengths L) <= 65)%nat /\ NoDup (with_lengths L) /\ table_size (with_lengths L) <= 4096 /\
  (forall x y, In x (with_lengths L) -> In y (with_lengths L) -> h_name x = h_name y -> ~ static_name (h_name x) -> x = y).
Proof.
  intros HL Hd. unfold with_lengths. pose proof (nodup_length L) as HM. set (M := nodup (list_eq_dec Z.eq_dec) L) in *.
  assert (Hd' : Forall (fun n => lenZ n <= 20) M).
  { rewrite Forall_forall in *. intros n Hn. apply Hd. now apply nodup_In in Hn. }
  assert (HN : NoDup M) by apply NoDup_nodup. clearbody M. split; [|split; [|split]].
  - rewrite app_length. unfold lengths. rewrite map_length. change (length fixed_fields) with 26%nat. unfold bytes in *. lia.
  - assert (G : forall h, In h fixed_fields -> In h (lengths M) -> False).
    { intros h H1 H2. apply in_map_iff in H2 as (n & <- & _). pose proof fixed_names as K. rewrite forallb_forall in K. apply K in H1. discriminate H1. }
    pose proof fixed_nodup as F. revert G F. generalize fixed_fields as D. induction D as [|h D IH]; intros G F; cbn [Datatypes.app].
    + unfold lengths. apply FinFun.Injective_map_NoDup; [|exact HN]. now intros x y [= ->].
    + inversion F as [|h' D' F1 F2]; subst. constructor; [|apply IH; [intros k K1 K2; apply (G k); [now right|exact K2]|exact F2]].
      intros K. apply in_app_or in K as [K|K]; [exact (F1 K)|]. apply (G h); [now left|exact K].
  - unfold table_size. rewrite map_app. assert (G : forall a b, fold_right Z.add 0 (a ++ b) = fold_right Z.add 0 a + fold_right Z.add 0 b).
    { clear. induction a as [|x a IH]; intros b; cbn [fold_right Datatypes.app]; [reflexivity|]. rewrite IH. lia. }
    rewrite G. assert (F : fold_right Z.add 0 (map entry_size fixed_fields) = 1427) by (vm_compute; reflexivity). rewrite F.
    assert (S : fold_right Z.add 0 (map entry_size (lengths M)) <= 66 * Z.of_nat (length M)).
    { clear -Hd'. induction Hd' as [|n M H _ IH]; [cbn; lia|]. cbn [lengths map fold_right length]. unfold lengths in IH.
      unfold entry_size at 1. cbn [h_name h_value]. change (lenZ (str "content-length")) with 14. lia. }
    unfold bytes in *. lia.
  - intros x y Hx Hy E N. apply in_app_or in Hx as [Hx|Hx]; [|exfalso; apply in_map_iff in Hx as (n & <- & _); apply N, length_name_static].
    apply in_app_or in Hy as [Hy|Hy]; [|exfalso; apply in_map_iff in Hy as (n & <- & _); apply N; rewrite E; apply length_name_static].
    now apply fixed_one_value.
Qed.

(** The program with its surroundings fixed: it answers the same as long as those do not
    change. *)
Definition fixed_app (page : stats -> Z -> bytes) (a : args) (o : os) (nnp : bool) : request -> world -> world * app_answer :=
  fun rq w => main_app page a rq (World o (w_stats w) (w_clock w) (w_readings w) nnp).
Section Fixed.
  Variable page : stats -> Z -> bytes.
  Variable a : args.
  Variable o : os.
  Variable nnp : bool.
  Hypothesis Ha : args_ok a o.
  Definition kept (w : world) : Prop := w_os w = o /\ w_no_new_privs w = nnp.
  Lemma fixed_answers rq w : exists w' r, fixed_app page a o nnp rq w = (w', Answers r) /\
    program_answer page a o nnp (rq_path rq) (rq_method rq) r.
  Proof.
    destruct (program_answers page a rq (World o (w_stats w) (w_clock w) (w_readings w) nnp) Ha) as (w' & r & E & K & _). exists w', r. split; [exact E|exact K].
  Qed.
  Lemma main_keeps rq w : kept w -> kept (fst (main_app page a rq w)).
  Proof.
    intros [E1 E2]. assert (Ha' : args_ok a (w_os w)) by now rewrite E1. destruct (program_answers page a rq w Ha') as (w' & r & -> & _ & S1 & S2). cbn [fst].
    split; congruence.
  Qed.
  Lemma fixed_agree rq w : kept w -> fixed_app page a o nnp rq w = main_app page a rq w.
  Proof. intros [<- <-]. unfold fixed_app. now destruct w. Qed.
  Lemma fixed_ok cs : files_fit page o -> answers_ok cs (fixed_app page a o nnp).
  Proof.
    intros Hf rq w w' r E. destruct (fixed_answers rq w) as (w2 & r2 & E' & K). rewrite E in E'. injection E' as _ <-.
    apply shape_ok. exact (answer_shape _ _ _ _ _ _ _ Hf K).
  Qed.
  Definition program_said (x : request * option response) : Prop :=
    exists r, snd x = Some r /\ program_answer page a o nnp (rq_path (fst x)) (rq_method (fst x)) r.
  Lemma fixed_handled others w0 l w : handled others (fixed_app page a o nnp) w0 l w -> Forall program_said l.
  Proof.
    induction 1 as [|l w w' H IH _|l w rq w' r H IH E|l w rq w' H IH E|l w rq w' H IH E]; auto.
    - apply Forall_app. split; [exact IH|]. constructor; [|constructor]. destruct (fixed_answers rq w) as (w2 & r2 & E' & K). rewrite E in E'. injection E' as _ <-.
      now exists r.
    - exfalso. destruct (fixed_answers rq w) as (w2 & r2 & E' & K). congruence.
    - exfalso. destruct (fixed_answers rq w) as (w2 & r2 & E' & K). congruence.
  Qed.
  Lemma main_handled w0 l w : kept w0 -> handled eq (main_app page a) w0 l w -> Forall program_said l /\ kept w.
  Proof.
    intros K0. assert (G : forall rq w, kept w -> exists w' r, main_app page a rq w = (w', Answers r) /\ kept w' /\
      program_answer page a o nnp (rq_path rq) (rq_method rq) r).
    { intros rq w1 [E1 E2]. assert (Ha' : args_ok a (w_os w1)) by now rewrite E1. destruct (program_answers page a rq w1 Ha') as (w' & r & E & P & S1 & S2).
      exists w', r. split; [exact E|]. split; [split; congruence|]. now rewrite E1, E2 in P. }
    induction 1 as [|l w w' H IH E|l w rq w' r H [I1 I2] E|l w rq w' H [I1 I2] E|l w rq w' H [I1 I2] E].
    - split; [constructor|exact K0].
    - now subst w'.
    - destruct (G rq w I2) as (w2 & r2 & E' & K & P). rewrite E in E'. injection E' as <- <-. split; [|exact K].
      apply Forall_app. split; [exact I1|]. constructor; [|constructor]. now exists r.
    - exfalso. destruct (G rq w I2) as (w2 & r2 & E' & K & P). congruence.
    - exfalso. destruct (G rq w I2) as (w2 & r2 & E' & K & P). congruence.
  Qed.
End Fixed.

(** ** A file that is there has one answer. *)
Lemma file_answer_found o url root p head l0 rel (d : location) (name : bytes) io b t r :
  real_place (os_fs o) (os_cwd o) -> ~ In 0 root -> static_matches (Static url root) p = true -> root_at o root l0 -> asks url p rel ->
  leads_to o l0 rel (d ++ [name]) -> below l0 (d ++ [name]) -> os_fs o (d ++ [name]) = Some (EFile true io b) ->
  type_of_name name t -> file_answer o url root p head r -> file_content head io t b r.
Proof.
  intros Hc Hz Hm Hr Ha Hl Hb Hf Ht H.
  assert (K : exists r', file_content head io t b r').
  { unfold file_content. destruct head; [|destruct io; eauto]. eexists _, _. split; [|reflexivity]. apply to_string_spec. unfold lenZ. lia. }
  destruct K as [r' K]. rewrite (file_unique o url root p head r r' Hc Hz Hm H (file_found o url root p head l0 rel d name io b t r' Hr Ha Hl Hb Hf Ht K)). exact K.
Qed.
Lemma program_file page a o nnp p m url root l0 rel (d : location) (name : bytes) io b t r :
  args_ok a o -> ~ own_route a nnp p m -> published a url root p m -> root_at o root l0 -> asks url p rel ->
  leads_to o l0 rel (d ++ [name]) -> below l0 (d ++ [name]) -> os_fs o (d ++ [name]) = Some (EFile true io b) ->
  type_of_name name t -> program_answer page a o nnp p m r -> file_content (bytes_eqb m HEAD) io t b r.
Proof.
  intros Ha Hn Hp Hr Has Hl Hb Hf Ht H.
  assert (G : forall r, first_answer page a o nnp p m r -> file_content (bytes_eqb m HEAD) io t b r).
  { intros r' [st now H1 H2 H3|r1 H1 H2 H3|url' root' r1 H1 (H2 & _) H3|H1 H2].
    - exfalso. apply Hn. split; [exact H2|]. left. auto.
    - exfalso. apply Hn. split; [exact H2|]. right. eauto.
    - pose proof (proj1 Hp) as Hp'. rewrite H2 in Hp'. injection Hp' as -> ->. destruct Hp as (Hp & _ & rest & ->).
      exact (file_answer_found o url root _ _ l0 rel d name io b t r1 (proj1 Ha) (proj2 (proj2 Ha) _ _ Hp) (starts_with_app _ _) Hr Has Hl Hb Hf Ht H3).
    - exfalso. exact (H2 url root Hp). }
  assert (N : forall r, file_content (bytes_eqb m HEAD) io t b r -> rs_status r <> 404).
  { intros r'. unfold file_content. destruct (bytes_eqb m HEAD); [intros (n & _ & ->); discriminate|]. destruct io; intros ->; discriminate. }
  destruct H as [r' H _|r' l b' t' H _ E _ _|r' H _ E _].
  - exact (G _ H).
  - exfalso. exact (N _ (G _ H) E).
  - exfalso. exact (N _ (G _ H) E).
Qed.

(** ** Every request but that for the status page has one answer. *)
Lemma all_same (b b' : bytes) x n : lenZ b = n -> Forall (fun c => c = x) b -> lenZ b' = n -> Forall (fun c => c = x) b' -> b = b'.
Proof.
  intros E H E' H'. assert (L : length b = length b') by (unfold lenZ in *; lia). clear E E'. revert b' H' L.
  induction H as [|c b -> _ IH]; intros [|c' b'] H' L; try discriminate L; [reflexivity|].
  apply Forall_cons_iff in H' as [-> H']. injection L as L. now rewrite (IH b' H' L).
Qed.
Lemma test_unique nnp p r r' : test_answer nnp p r -> test_answer nnp p r' -> r = r'.
Proof.
  intros H H'. destruct H as [| | |b L F|b L F]; inversion H' as [| | |b' L' F'|b' L' F']; try reflexivity;
    rewrite (all_same b b' 65 _ L F L' F'); reflexivity.
Qed.
Lemma first_unique page a o nnp p m r r' : args_ok a o ->
  ~ (a_status_page a = true /\ m = GET /\ p = str "/_ion/status") ->
  first_answer page a o nnp p m r -> first_answer page a o nnp p m r' -> r = r'.
Proof.
  intros Ha Hn H H'.
  assert (T : forall x, a_under_test a = true -> m = GET -> test_answer nnp p x -> own_route a nnp p m).
  { intros x H1 H2 H3. split; [exact H2|]. right. split; [exact H1|]. now exists x. }
  destruct H as [st now H1 H2 H3|r1 H1 H2 H3|url root r1 H1 H2 H3|H1 H2]; [exfalso; apply Hn; auto|..];
    destruct H' as [st' now' G1 G2 G3|r2 G1 G2 G3|url' root' r2 G1 G2 G3|G1 G2]; try (exfalso; apply Hn; auto; fail);
    try (exfalso; eauto; fail).
  - exact (test_unique _ _ _ _ H3 G3).
  - pose proof (proj1 H2) as E. rewrite (proj1 G2) in E. injection E as -> ->. destruct H2 as (E & _ & rest & ->).
    exact (file_unique o url root _ _ _ _ (proj1 Ha) (proj2 (proj2 Ha) _ _ E) (starts_with_app _ _) H3 G3).
  - exfalso. exact (G2 _ _ H2).
  - exfalso. exact (H2 _ _ G2).
  - reflexivity.
Qed.
Lemma program_unique page a o nnp p m r r' : args_ok a o ->
  ~ (a_status_page a = true /\ m = GET /\ p = str "/_ion/status") ->
  program_answer page a o nnp p m r -> program_answer page a o nnp p m r' -> r = r'.
Proof.
  intros Ha Hn H H'. pose proof (first_unique page a o nnp p m) as U.
  destruct H as [r1 H1 H2|r1 l b t H1 H2 H3 H4 H5|r1 H1 H2 H3 H4]; destruct H' as [r2 G1 G2|r2 l' b' t' G1 G2 G3 G4 G5|r2 G1 G2 G3 G4];
    pose proof (U _ _ Ha Hn H1 G1); subst; try (exfalso; intuition congruence; fail); try reflexivity;
    [|exfalso; exact (G4 _ _ H4)|exfalso; exact (H4 _ _ G4)].
  rewrite <- (mime_any _ _ H5), <- (mime_any _ _ G5). destruct H4 as (_ & X1 & X2), G4 as (_ & Y1 & Y2).
  apply walk_resolves in X1. apply walk_resolves in Y1. rewrite X1 in Y1. injection Y1 as <-. congruence.
Qed.
