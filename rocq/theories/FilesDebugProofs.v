(** Proofs about the messages at level debug about static files. *)
From Verif Require Import Base BaseLemmas Http FileSys Files SpecFiles SpecConn ConnTerm FilesProofs FilesServe FilesText Router SpecRouter RouterProofs App AppProofs SpecProgram ProgramProofs
  AccessLog Messages DebugMessages SpecMessages SpecDebug DebugProofs MessagesProofs MessagesRule MessagesFiles FilesDebug SpecDebugFiles.

Lemma asides_app a b : asides (a ++ b) = asides a ++ asides b.
Proof. apply filter_app. Qed.
Lemma louder_app a b : louder (a ++ b) = louder a ++ louder b.
Proof. apply filter_app. Qed.
Lemma alarming_aside ms : Forall alarming ms -> asides ms = [] /\ louder ms = ms.
Proof.
  induction 1 as [|m ms H _ [I1 I2]]; [easy|]. unfold asides, louder in *. cbn [filter]. rewrite I1, I2.
  destruct H as [->|[->| ->]]; easy.
Qed.
Lemma written_eq l : written l = path_string l.
Proof. reflexivity. Qed.

Section Static.
  Variable path_error : bytes -> bytes -> bytes.
  Variable fails : bytes -> unread.
  Notation static_debug := (static_debug path_error fails).
  Notation file_debug := (file_debug path_error fails).

  Lemma louder_file o p head : louder (file_debug o p head) = file_messages path_error fails o p head.
  Proof.
    unfold FilesDebug.file_debug, file_messages. destruct (is_readable o p); [|reflexivity].
    unfold head_response_debug, get_response_debug, read_file_debug, get_response_messages, head_response_messages, read_file_messages.
    destruct head; [destruct (get_file_size o p)|destruct (read_file o p); try destruct (fails p)]; reflexivity.
  Qed.
  Lemma louder_static o h p head : louder (static_debug o h p head) = static_messages path_error fails o h p head.
  Proof.
    unfold FilesDebug.static_debug, static_messages. destruct (get_relative_path h p) as [rel| | |]; try reflexivity.
    rewrite louder_app. rewrite (proj2 (alarming_aside _ (proj1 (complaints_sanitize path_error o (st_root h) rel)))). f_equal.
    destruct (sanitize_path _ _ _); [apply louder_file|reflexivity].
  Qed.

  (** What is said of the path [s]. *)
  Definition said (o : os) (s : bytes) (head : bool) : list message :=
    match resolve o s with
    | At l =>
      match os_fs o l with
      | Some (EFile true io b) =>
        if head then [Msg LDebug (str "Returning metadata for static file: " ++ s ++ str " (" ++ to_string (lenZ b) ++ str " bytes, " ++ get_mime_type s ++ str ")")]
        else if io then
          [Msg LDebug (str "Read file: " ++ s ++ str " (" ++ to_string (lenZ b) ++ str " bytes)");
           Msg LDebug (str "serving static file: " ++ s ++ str " (" ++ to_string (lenZ b) ++ str " bytes, " ++ get_mime_type s ++ str ")")]
        else []
      | _ => [not_found s]
      end
    | Err _ => [not_found s]
    end.
  Lemma asides_file o s head : asides (file_debug o s head) = said o s head.
  Proof.
    unfold FilesDebug.file_debug, said, is_readable. destruct (resolve o s) as [l|] eqn:E; [|reflexivity].
    destruct (os_fs o l) as [[[] io b|?|?|]|] eqn:El; try reflexivity.
    unfold head_response_debug, get_response_debug, read_file_debug, head_response_messages, read_file_messages, get_file_size, read_file. rewrite E, El.
    destruct head; [reflexivity|]. destruct io; [reflexivity|]. now destruct (fails s).
  Qed.
  Lemma asides_static o h p head rel : asks (st_prefix h) p rel ->
    asides (static_debug o h p head) = match sanitize_path o (st_root h) rel with None => [] | Some s => said o s head end.
  Proof.
    intros H. unfold FilesDebug.static_debug. rewrite (asks_path h p rel H), asides_app.
    rewrite (proj1 (alarming_aside _ (proj1 (complaints_sanitize path_error o (st_root h) rel)))).
    destruct (sanitize_path _ _ _); [apply asides_file|reflexivity].
  Qed.

  Lemma said_file o s head l io b t : resolve o s = At l -> os_fs o l = Some (EFile true io b) -> get_mime_type s = t -> about_file head io s t b (said o s head).
  Proof.
    intros E El <-. unfold said. rewrite E, El. exists (to_string (lenZ b)). split; [apply to_string_spec; unfold lenZ; lia|].
    destruct head; [reflexivity|]. now destruct io.
  Qed.
  Lemma about_unique head io s t b ms ms' : about_file head io s t b ms -> about_file head io s t b ms' -> ms = ms'.
  Proof. intros (n & Hn & E) (n' & Hn' & E'). rewrite <- (decimal_unique _ _ _ Hn Hn') in E'. destruct head; [congruence|]. destruct io; congruence. Qed.

  Section Place.
    Variable o : os.
    Hypothesis Hc : real_place (os_fs o) (os_cwd o).
    Lemma found_path root l0 rel l : root_at o root l0 -> leads_to o l0 rel l ->
      sanitize_path o root rel = (if within l0 l then Some (path_string l) else None) /\ resolve o (path_string l) = At l.
    Proof.
      intros Hr Hl. pose proof Hr as (_ & _ & Hx & _). destruct (root_status o Hc _ l0 Hr) as (_ & _ & _ & _ & Hl0).
      pose proof (leads_real _ _ _ _ Hl0 Hl) as Hrl. unfold leads_to in Hl. apply walk_resolves in Hl.
      pose proof (root_dir o l0 Hl0 Hx) as Hy. rewrite <- (append_walk o l0 rel) in Hl by auto.
      destruct (real_entry _ _ Hrl ltac:(destruct Hy; congruence)) as [e He].
      unfold sanitize_path. rewrite (sanitize_eq o Hc _ l0 rel Hr).
      rewrite (weakly_cut o l _ e Hy (append_clean o l0 rel Hl0) Hl He). cbn [obind]. split; [now destruct (within l0 l)|].
      now apply real_resolve.
    Qed.
    Lemma text_path root l0 rel q : root_at o root l0 -> textual o l0 rel q ->
      sanitize_path o root rel = (if within l0 q then Some (path_string q) else None) /\ FilesProofs.clean q /\
      forall l, resolve o (path_string q) = At l <-> stands_at o q l.
    Proof.
      intros R Hq. destruct (root_status o Hc _ l0 R) as (_ & _ & _ & _ & Hl0). pose proof R as (_ & _ & Hx & _).
      destruct (missing_path o Hc root l0 rel R) as [[_ K]|(a & c & b & L & Ea & HL & Ht & Es)].
      - intros l. exact (textual_nowhere o l0 rel q l Hl0 Hx Hq).
      - exfalso. exact (K q Hq).
      - pose proof (textual_unique o l0 rel _ _ Hq Ht) as E.
        destruct (stands_resolve o L c b l0 rel a Hl0 (root_dir o l0 Hl0 Hx) HL Ea) as [Hcl Hst]. rewrite <- E in *. clear E.
        split; [exact Es|]. split; [exact Hcl|exact Hst].
    Qed.
    Lemma last_mime (d : list bytes) (n t : bytes) : FilesProofs.clean (d ++ [n]) -> type_of_name n t -> get_mime_type (path_string (d ++ [n])) = t.
    Proof.
      intros H Ht. refine (mime_name d n t _ Ht). apply clean_parts in H. apply Forall_app in H as [_ H]. now apply Forall_cons_iff in H as [H _].
    Qed.
    Lemma not_said s head : (forall l io b, resolve o s = At l -> os_fs o l <> Some (EFile true io b)) -> said o s head = [not_found s].
    Proof.
      intros H. unfold said. destruct (resolve o s) as [l|]; [|reflexivity]. specialize (H l).
      destruct (os_fs o l) as [[[] io b|?|?|]|]; try reflexivity. exfalso. now apply (H io b).
    Qed.

    Lemma told_sound url root p head ms : ~ In 0 root -> static_matches (Static url root) p = true ->
      file_told o url root p head ms -> ms = asides (static_debug o (Static url root) p head).
    Proof.
      intros Hz Hm H. destruct H as [H|l1 rel d n io b t ms R A L B F Ty C|l1 rel l R A L B F|l1 rel q n l io b t ms R A Q B S F Ty C|l1 rel q R A Q B N].
      - destruct (asks_some (Static url root) p Hm) as [rel A]. rewrite (asides_static o (Static url root) p head rel A). cbn [st_root].
        apply (file_sound o url root p head _ Hc Hz Hm) in H. rewrite (handle_eq o (Static url root) p head rel A) in H. cbn [st_root] in H. injection H as H.
        destruct (sanitize_path o root rel) as [s|]; [|reflexivity]. exfalso. revert H. unfold file_response, head_response, get_response.
        destruct (is_readable o s); [|discriminate]. destruct head; [destruct (get_file_size o s)|destruct (read_file o s)]; discriminate.
      - rewrite (asides_static o (Static url root) p head rel A). cbn [st_root]. destruct (found_path root l1 rel _ R L) as [-> E].
        apply within_below in B. unfold path, location in *. rewrite B. apply (about_unique head io _ _ b _ _ C). rewrite written_eq. eapply said_file; [exact E|exact F|].
        destruct (root_status o Hc _ l1 R) as (_ & _ & _ & _ & Hl0). apply last_mime; [|exact Ty]. apply (leads_real o l1 rel _ Hl0) in L. exact (proj1 (real_clean _ _ L)).
      - rewrite (asides_static o (Static url root) p head rel A). cbn [st_root]. destruct (found_path root l1 rel _ R L) as [-> E].
        apply within_below in B. rewrite B. symmetry. apply (not_said (path_string _) head). intros l' io b E'. rewrite E in E'. injection E' as <-. apply F.
      - rewrite (asides_static o (Static url root) p head rel A). cbn [st_root]. destruct (text_path root l1 rel _ R Q) as (-> & Hcl & Hst).
        apply within_below in B. unfold path, location in *. rewrite B. apply (about_unique head io _ _ b _ _ C). rewrite written_eq. apply Hst in S. eapply said_file; [exact S|exact F|]. now apply last_mime.
      - rewrite (asides_static o (Static url root) p head rel A). cbn [st_root]. destruct (text_path root l1 rel _ R Q) as (-> & Hcl & Hst).
        apply within_below in B. rewrite B. symmetry. apply (not_said (path_string _) head). intros l io b E. apply Hst in E. now apply N.
    Qed.
    Lemma told_exists url root p head : ~ In 0 root -> static_matches (Static url root) p = true -> exists ms, file_told o url root p head ms.
    Proof.
      intros Hz Hm.
      assert (X : exists r, static_handle o (Static url root) p head = Ret r).
      { destruct (asks_some (Static url root) p Hm) as [rel A]. rewrite (handle_eq o (Static url root) p head rel A). eauto. }
      destruct X as [r E]. apply (file_answered o url root p head r Hc Hz Hm) in E.
      assert (AB : forall io s t b, exists ms, about_file head io s t b ms).
      { intros io s t b. destruct head; [|destruct io]; eexists; exists (to_string (lenZ b)); (split; [apply to_string_spec; unfold lenZ; lia|reflexivity]). }
      destruct E as [K|l1 rel l R A L B|l1 rel d n io b t r R A L B F Ty C|l1 rel l R A L B F|l1 rel R A L N|l1 rel q R A Q B
        |l1 rel q n l io b t r R A Q B S F Ty C|l1 rel q R A Q B N].
      - exists []. apply told_refused. now apply file_no_root.
      - exists []. apply told_refused. now apply (file_outside o url root p head l1 rel l).
      - destruct (AB io (written (d ++ [n])) t b) as [ms M]. exists ms. exact (told_found o url root p head l1 rel d n io b t ms R A L B F Ty M).
      - eexists. exact (told_unreadable o url root p head l1 rel l R A L B F).
      - exists []. apply told_refused. exact (file_barred o url root p head l1 rel R A L N).
      - exists []. apply told_refused. exact (file_text_outside o url root p head l1 rel q R A Q B).
      - destruct (AB io (written (q ++ [n])) t b) as [ms M]. exists ms. exact (told_text_found o url root p head l1 rel q n l io b t ms R A Q B S F Ty M).
      - eexists. exact (told_text_missing o url root p head l1 rel q R A Q B N).
    Qed.
    Lemma told_exactly url root p head ms : ~ In 0 root -> static_matches (Static url root) p = true ->
      (file_told o url root p head ms <-> ms = asides (static_debug o (Static url root) p head)).
    Proof.
      intros Hz Hm. split; [now apply told_sound|]. intros ->. destruct (told_exists url root p head Hz Hm) as [ms H].
      now rewrite <- (told_sound url root p head ms Hz Hm H).
    Qed.
  End Place.
End Static.

(** ** The program *)
Section Program.
  Variable path_error : bytes -> bytes -> bytes.
  Variable fails : bytes -> unread.
  Variable page : stats -> Z -> bytes.
  Variable a : args.
  Notation regs := (main_registrations page a).

  Lemma program_statics : statics_of world regs = match a_static_map a with [url; root] => [Static url root] | _ => [] end.
  Proof.
    unfold statics_of, main_registrations. rewrite !flat_map_app.
    destruct (a_under_test a), (a_status_page a); cbn [flat_map test_routes status_page List.app];
      (destruct (a_static_map a) as [|u [|r [|]]]; destruct (a_status_404_file_path a); reflexivity).
  Qed.
  (** Which handler a request goes to. *)
  Lemma program_target {X} nnp rq (F : static -> X) (none : X) :
    let r := configure world regs in
    let x := match find_route world (r_routes world r) (rq_path rq) (rq_method rq) with
             | Some _ => none
             | None => if bytes_eqb (rq_method rq) (str "GET") || bytes_eqb (rq_method rq) (str "HEAD") then
                         match find (fun h => static_matches h (rq_path rq)) (rev (r_static world r)) with Some h => F h | None => none end
                       else none
             end in
    (own_route a nnp (rq_path rq) (rq_method rq) /\ x = none) \/
    (~ own_route a nnp (rq_path rq) (rq_method rq) /\
     ((exists url root, published a url root (rq_path rq) (rq_method rq) /\ x = F (Static url root)) \/
      ((forall url root, ~ published a url root (rq_path rq) (rq_method rq)) /\ x = none))).
  Proof.
    cbv zeta. destruct (configure_parts world regs) as [-> ->]. pose proof (find_route_spec world regs (rq_path rq) (rq_method rq)) as K.
    destruct (find_route world (routes_of world regs) (rq_path rq) (rq_method rq)) as [h|].
    { left. split; [|reflexivity]. destruct K as (x & y & E & _). pose proof (registered page a) as HR. rewrite E in HR.
      apply Forall_app in HR as [_ HR]. apply Forall_cons_iff in HR as [[HR _] _]. apply HR. }
    right. split.
    { intros O. destruct (own_routes page a _ _ _ O) as (z & Z1 & Z2). exact (K z Z1 Z2). }
    rewrite program_statics. unfold published. clear K.
    destruct (bytes_eqb (rq_method rq) (str "GET") || bytes_eqb (rq_method rq) (str "HEAD")) eqn:EM.
    - assert (HM : rq_method rq = GET \/ rq_method rq = HEAD) by (apply orb_true_iff in EM as [EM|EM]; apply bytes_eqb_eq in EM; auto).
      destruct (a_static_map a) as [|u [|r [|]]]; try (right; split; [intros url root (E & _); discriminate E|reflexivity]).
      cbn [rev List.app find]. destruct (static_matches (Static u r) (rq_path rq)) eqn:E.
      + left. exists u, r. split; [|reflexivity]. split; [reflexivity|]. split; [exact HM|]. now apply matches_prefix in E.
      + right. split; [|reflexivity]. intros url root ([= <- <-] & _ & rest & Ep). rewrite (proj2 (matches_prefix (Static u r) _)) in E; [discriminate|]. exists rest. exact Ep.
    - right. split; [|reflexivity]. intros url root (_ & [E|E] & _); rewrite E in EM; discriminate EM.
  Qed.
  Lemma target_told nnp rq w : args_ok a (w_os w) -> first_told a (w_os w) nnp (rq_path rq) (rq_method rq) (asides (target_debug path_error fails page a rq w)).
  Proof.
    intros (Hc & _ & Hz). unfold target_debug. cbv zeta.
    destruct (program_target nnp rq (fun h => static_debug path_error fails (w_os w) h (rq_path rq) (bytes_eqb (rq_method rq) (str "HEAD"))) [])
      as [[O ->]|[O [(url & root & P & ->)|[P ->]]]].
    - now apply first_told_own.
    - apply (first_told_file a (w_os w) nnp _ _ url root); [exact O|exact P|]. pose proof P as (E & _ & rest & Ep).
      apply (told_exactly path_error fails (w_os w) Hc); [exact (Hz _ _ E)| |reflexivity]. apply matches_prefix. exists rest. exact Ep.
    - now apply first_told_nothing.
  Qed.
  Lemma louder_target rq w : louder (target_debug path_error fails page a rq w) = target_messages path_error fails page a rq w.
  Proof.
    unfold target_debug, target_messages. cbv zeta. destruct (find_route _ _ _ _); [reflexivity|]. destruct (_ || _); [|reflexivity].
    destruct (find _ _); [apply louder_static|reflexivity].
  Qed.
  Lemma louder_program rq w : louder (program_debug path_error fails page a rq w) = program_messages path_error fails page a rq w.
  Proof.
    unfold program_debug, program_messages. rewrite louder_app, louder_target. f_equal. destruct (a_status_404_file_path a) as [|c f]; [reflexivity|].
    destruct (snd (main_app page a rq w)) as [r| |]; try reflexivity. destruct (rs_status r =? 404); [apply louder_file|reflexivity].
  Qed.
  Lemma program_told_ok rq w : args_ok a (w_os w) ->
    program_told page a (w_os w) (w_no_new_privs w) (rq_path rq) (rq_method rq) (asides (program_debug path_error fails page a rq w)).
  Proof.
    intros Ha. unfold program_debug. rewrite asides_app. pose proof (target_told (w_no_new_privs w) rq w Ha) as HT.
    destruct (a_status_404_file_path a) as [|c f] eqn:Ef.
    { rewrite app_nil_r. destruct (own_first page a rq w Ef Ha) as (w' & r & _ & H & _). apply (told_same _ _ _ _ _ _ r); auto. }
    assert (Hf : a_status_404_file_path a <> []) by (rewrite Ef; discriminate).
    assert (Ha' : args_ok (without_404 a) (w_os w)) by (destruct Ha as (H1 & H2 & H3); split; [exact H1|split; [now intros []|exact H3]]).
    destruct (own_first page (without_404 a) rq w eq_refl Ha') as (w' & r & E & H & S). apply first_without in H.
    rewrite (page_shown page a rq w w' r Hf E). cbn [snd]. destruct (Z.eqb_spec (rs_status r) 404) as [Es|Es].
    2:{ replace (rs_status r =? 404) with false by lia. rewrite app_nil_r. apply (told_same _ _ _ _ _ _ r); auto. }
    cbv zeta. cbn [rs_status Z.eqb Pos.eqb]. rewrite asides_file. rewrite <- Ef.
    assert (Hz : ~ In 0 (a_status_404_file_path a)) by apply Ha.
    assert (C : resolve (w_os w) (a_status_404_file_path a) = walk (os_fs (w_os w)) (os_links (w_os w)) (if absolute (a_status_404_file_path a) then [] else os_cwd (w_os w)) (elements (a_status_404_file_path a)))
      by (unfold resolve; rewrite c_str_id by exact Hz; now rewrite Ef).
    assert (D : (exists l io b, resolve (w_os w) (a_status_404_file_path a) = At l /\ os_fs (w_os w) l = Some (EFile true io b)) \/
                forall l io b, resolve (w_os w) (a_status_404_file_path a) = At l -> os_fs (w_os w) l <> Some (EFile true io b)).
    { destruct (resolve (w_os w) (a_status_404_file_path a)) as [l|]; [|right; discriminate].
      destruct (os_fs (w_os w) l) as [[[] io b|?|?|]|] eqn:El; try (right; intros l' io' b' [= <-]; congruence). left. eauto. }
    destruct D as [(l & io & b & El & Eb)|D].
    - apply (told_page _ _ _ _ _ _ r _ _ l io b (get_mime_type (a_status_404_file_path a))); auto.
      + split; [exact Hf|]. rewrite C in El. now apply walk_resolves.
      + apply type_some.
      + apply said_file with l; auto.
    - rewrite not_said by exact D. apply (told_no_page _ _ _ _ _ _ r); auto.
      intros l io b [_ K]. apply D. rewrite C. now apply walk_resolves.
  Qed.

  (** The messages are determined. *)
  Lemma first_told_unique o nnp p m ms ms' : args_ok a o -> first_told a o nnp p m ms -> first_told a o nnp p m ms' -> ms = ms'.
  Proof.
    intros (Hc & _ & Hz) [O|url root x O P H|O P] [O'|url' root' x' O' P' H'|O' P']; try contradiction; try reflexivity.
    - pose proof P as (E & _ & rest & Ep). pose proof P' as (E' & _). rewrite E in E'. injection E' as <- <-.
      assert (M : static_matches (Static url root) p = true) by (apply matches_prefix; exists rest; exact Ep).
      apply (told_exactly path_error fails o Hc _ _ _ _ _ (Hz _ _ E) M) in H, H'. congruence.
    - exfalso. exact (P' _ _ P).
    - exfalso. exact (P _ _ P').
  Qed.
  Lemma own_not_404 nnp p m r o : own_route a nnp p m -> first_answer page a o nnp p m r -> rs_status r <> 404.
  Proof.
    intros O [st now H1 H2 H3|r' H1 H2 H3|url root r' N P F|N P]; try contradiction; cbn [rs_status]; [lia|].
    destruct H3; cbn [rs_status]; try lia. destruct nnp; lia.
  Qed.
  Lemma first_404 o nnp p m r r' : args_ok a o -> first_answer page a o nnp p m r -> first_answer page a o nnp p m r' -> rs_status r = 404 -> rs_status r' = 404.
  Proof.
    intros (Hc & _ & Hz) H H' E.
    assert (N : ~ own_route a nnp p m) by (intros O; exact (own_not_404 _ _ _ _ _ O H E)).
    assert (X : forall r, first_answer page a o nnp p m r -> (exists url root, published a url root p m /\ file_answer o url root p (bytes_eqb m HEAD) r) \/
                          ((forall url root, ~ published a url root p m) /\ r = Response 404 [] [])).
    { clear -N. intros r [st now H1 H2 H3|r' H1 H2 H3|url root r' _ P F|_ P]; eauto; destruct N; (split; [exact H2|]); [left|right]; split; eauto. }
    destruct (X r H) as [(u & t & P & F)|[P ->]]; destruct (X r' H') as [(u' & t' & P' & F')|[P' ->]]; try reflexivity.
    - pose proof P as (E1 & _ & rest & Ep). pose proof P' as (E2 & _). rewrite E1 in E2. injection E2 as <- <-.
      assert (M : static_matches (Static u t) p = true) by (apply matches_prefix; exists rest; exact Ep).
      now rewrite <- (file_unique o u t p _ r r' Hc (Hz _ _ E1) M F F').
    - exfalso. exact (P _ _ P').
  Qed.
  Lemma place_unique o path l l' : place o path l -> place o path l' -> l = l'.
  Proof. intros [_ H] [_ H']. apply walk_resolves in H, H'. congruence. Qed.
  Lemma program_told_unique o nnp p m ms ms' : args_ok a o -> program_told page a o nnp p m ms -> program_told page a o nnp p m ms' -> ms = ms'.
  Proof.
    intros Ha H H'. inversion H as [r x F R N|r x y l io b t F R E Pl Eb Ty Ab|r x F R E Ne Nf]; inversion H' as [r' x' F' R' N'|r' x' y' l' io' b' t' F' R' E' Pl' Eb' Ty' Ab'|r' x' F' R' E' Ne' Nf']; subst;
      pose proof (first_told_unique _ _ _ _ _ _ Ha F F'); subst.
    - reflexivity.
    - exfalso. destruct N as [N|N]; [now destruct Pl'|]. apply N. exact (first_404 _ _ _ _ _ _ Ha R' R E').
    - exfalso. destruct N as [N|N]; [now destruct Ne'|]. apply N. exact (first_404 _ _ _ _ _ _ Ha R' R E').
    - exfalso. destruct N' as [N'|N']; [now destruct Pl|]. apply N'. exact (first_404 _ _ _ _ _ _ Ha R R' E).
    - pose proof (place_unique _ _ _ _ Pl Pl'). subst l'. rewrite Eb in Eb'. injection Eb' as <- <-. rewrite <- (mime_any _ _ Ty) in Ab. rewrite <- (mime_any _ _ Ty') in Ab'.
      f_equal. exact (about_unique _ _ _ _ _ _ _ Ab Ab').
    - exfalso. exact (Nf' _ _ _ Pl Eb).
    - exfalso. destruct N' as [N'|N']; [now destruct Ne|]. apply N'. exact (first_404 _ _ _ _ _ _ Ha R R' E).
    - exfalso. exact (Nf _ _ _ Pl' Eb').
    - reflexivity.
  Qed.
  Lemma program_told_exactly rq w ms : args_ok a (w_os w) ->
    (program_told page a (w_os w) (w_no_new_privs w) (rq_path rq) (rq_method rq) ms <-> ms = asides (program_debug path_error fails page a rq w)).
  Proof.
    intros Ha. pose proof (program_told_ok rq w Ha) as H. split; [|intros ->; exact H]. intros H'. exact (program_told_unique _ _ _ _ _ _ Ha H' H).
  Qed.
End Program.
