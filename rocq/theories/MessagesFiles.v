(** The messages of static files and the lines on the console. *)
From Verif Require Import Base BaseLemmas Huffman Http Conn SpecConn ConnBasic ConnWit FileSys Files FilesServe Router App AccessLog Messages SpecMessages MessagesProofs MessagesRule.

(** ** Static files *)
Section Static.
  Variable path_error : bytes -> bytes -> bytes.
  Variable fails : bytes -> unread.
  Notation static_messages := (static_messages path_error fails).
  Notation file_messages := (file_messages path_error fails).
  Notation sanitize_messages := (sanitize_messages path_error).

  (** Every message is a warning or an error, and printable if what it names is. *)
  Definition complaints (ms : list message) : Prop := Forall alarming ms.
  Lemma complaints_sanitize o b r : complaints (sanitize_messages o b r) /\ (printable b -> printable r -> printable (path_error b r) -> clean (sanitize_messages o b r)).
  Proof.
    unfold Messages.sanitize_messages, complaints, clean.
    destruct (fs_absolute o b); [destruct (fs_status o _) as [[[]|]| | |]; try destruct (sanitize o b r) as [[]| | |]|..];
      (split; [repeat constructor; first [apply alarming_warn|apply alarming_err]|intros Hb Hr He]); is_clean.
  Qed.
  Lemma sanitize_said o b r : match sanitize_path o b r with Some _ => sanitize_messages o b r = [] | None => exists m, sanitize_messages o b r = [m] end.
  Proof.
    unfold Messages.sanitize_messages, sanitize_path. unfold sanitize at 1.
    destruct (fs_absolute o b) eqn:E1; cbn [obind]; eauto. destruct (fs_status o _) as [[[]|]| | |] eqn:E2; cbn [obind]; eauto.
    unfold sanitize. rewrite E1. cbn [obind]. rewrite E2. cbn [obind].
    destruct (weakly_canonical o a); cbn [obind]; eauto. destruct (weakly_canonical o _); cbn [obind]; eauto. destruct (within _ _); eauto.
  Qed.
  Lemma complaints_file o p head : complaints (file_messages o p head).
  Proof.
    unfold Messages.file_messages, head_response_messages, get_response_messages, read_file_messages. destruct (is_readable o p); [|constructor].
    destruct head; [destruct (get_file_size o p)|destruct (read_file o p); try destruct (fails p)]; repeat constructor; first [apply alarming_warn|apply alarming_err].
  Qed.
  Lemma clean_file o p head : printable p -> printable (path_error [] p) -> clean (file_messages o p head).
  Proof.
    intros Hp He. unfold Messages.file_messages, head_response_messages, get_response_messages, read_file_messages. destruct (is_readable o p); [|constructor].
    destruct head; [destruct (get_file_size o p)|destruct (read_file o p); try destruct (fails p)]; is_clean.
  Qed.
  Lemma complaints_static o h p head : complaints (static_messages o h p head).
  Proof.
    unfold Messages.static_messages. destruct (get_relative_path h p); try constructor. apply Forall_app. split; [apply complaints_sanitize|].
    destruct (sanitize_path _ _ _); [apply complaints_file|]. repeat constructor. 
  Qed.
  Lemma static_reports o h p head r : static_handle o h p head = Ret r ->
    (rs_status r = 403 -> exists m, static_messages o h p head = [m; warn (str "invalid file path requested: " ++ p)]) /\
    (rs_status r = 500 -> exists a m, static_messages o h p head = [a; m] /\ m_level m = LErr) /\
    (rs_status r = 200 \/ rs_status r = 404 -> static_messages o h p head = []).
  Proof.
    unfold static_handle, Messages.static_messages. destruct (get_relative_path h p) as [rel| | |]; cbn [obind]; try discriminate.
    pose proof (sanitize_said o (st_root h) rel) as S. destruct (sanitize_path o (st_root h) rel) as [safe|]; intros [= <-].
    - rewrite S. cbn [List.app].
      unfold file_response, Messages.file_messages, head_response, head_response_messages, get_response, get_response_messages, read_file_messages.
      destruct (is_readable o safe); [|repeat split; cbn; try discriminate; auto].
      destruct head; [destruct (get_file_size o safe)|destruct (read_file o safe)]; cbn [rs_status]; repeat split; try discriminate; try (intros []; discriminate); eauto.
      all: intros _; try destruct (fails safe); do 2 eexists; split; reflexivity.
    - destruct S as [m ->]. cbn [rs_status]. repeat split; try discriminate; try (intros []; discriminate). intros _. now exists m.
  Qed.
  (** The query string is not looked at. *)
  Lemma same_path h p0 q : static_matches h p0 = true -> ~ In 63 p0 -> p0 <> st_prefix h -> p0 <> st_prefix h ++ [SLASH] ->
    get_relative_path h (p0 ++ 63 :: q) = get_relative_path h p0.
  Proof.
    intros Hm Hq N1 N2. apply starts_with_inv in Hm as [r ->]. unfold get_relative_path. rewrite <- !app_assoc.
    rewrite !lenZ_app. pose proof (lenZ_nonneg r). pose proof (lenZ_nonneg (r ++ 63 :: q)) as L. rewrite lenZ_app in L.
    replace (lenZ (st_prefix h) + (lenZ r + lenZ (63 :: q)) <? lenZ (st_prefix h)) with false by lia.
    replace (lenZ (st_prefix h) + lenZ r <? lenZ (st_prefix h)) with false by lia.
    assert (SK : forall a b : bytes, skipn (length a) (a ++ b) = b) by (intros a b; now rewrite skipn_app, Nat.sub_diag, skipn_all).
    rewrite !SK.
    destruct r as [|x r]; [now rewrite app_nil_r in N1|]. cbn [List.app null orb].
    assert (E1 : bytes_eqb (x :: r ++ 63 :: q) [SLASH] = false).
    { apply Bool.not_true_is_false. intros E. apply bytes_eqb_eq in E. injection E as _ E. now destruct r. }
    assert (E2 : bytes_eqb (x :: r) [SLASH] = false).
    { apply Bool.not_true_is_false. intros E. apply bytes_eqb_eq in E. now rewrite E in N2. }
    rewrite E1, E2. rewrite !absolute_starts. cbn [absolute].
    assert (Hr : ~ In 63 (x :: r)) by (intros K; apply Hq, in_app_iff; now right).
    destruct (x =? SLASH); cbn [tl]; f_equal.
    - assert (Hr' : ~ In 63 r) by (intros K; apply Hr; now right). rewrite before_query_app by auto. rewrite <- (app_nil_r r) at 2. now rewrite before_query_app by auto.
    - change (x :: r ++ 63 :: q) with ((x :: r) ++ 63 :: q). rewrite before_query_app by auto. rewrite <- (app_nil_r (x :: r)) at 2. now rewrite before_query_app by auto.
  Qed.
  Lemma forged_403 o h p0 q head r : static_matches h p0 = true -> ~ In 63 p0 -> p0 <> st_prefix h -> p0 <> st_prefix h ++ [SLASH] ->
    static_handle o h p0 head = Ret r -> rs_status r = 403 ->
    static_handle o h (p0 ++ 63 :: q) head = Ret r /\
    exists m, static_messages o h (p0 ++ 63 :: q) head = [m; warn (str "invalid file path requested: " ++ p0 ++ 63 :: q)].
  Proof.
    intros H1 H2 H3 H4 E Es. assert (E' : static_handle o h (p0 ++ 63 :: q) head = Ret r).
    { unfold static_handle in *. now rewrite same_path. }
    split; [exact E'|]. destruct (static_reports _ _ _ _ _ E') as [R _]. auto.
  Qed.

  (** Printable requests. *)
  Lemma printable_query s : printable s -> printable (before_query s).
  Proof. destruct (before_query_split s) as (q & E & _). intros H. rewrite E in H. now apply Forall_app in H. Qed.
  Lemma printable_relative h p rel : printable p -> get_relative_path h p = Ret rel -> printable rel.
  Proof.
    intros Hp. unfold get_relative_path. destruct (_ <? _); [discriminate|]. cbv zeta. intros [= <-]. apply printable_query.
    set (r := if _ || _ then _ else _). assert (Hr : printable r).
    { unfold r. destruct (_ || _); [apply printable_b; reflexivity|]. rewrite <- (firstn_skipn (length (st_prefix h)) p) in Hp. now apply Forall_app in Hp. }
    destruct (starts_with r [SLASH]); [|exact Hr]. destruct r; [constructor|]. now inversion Hr.
  Qed.
  Lemma static_clean o h p head r : (forall a b, printable a -> printable b -> printable (path_error a b)) ->
    printable p -> printable (st_root h) -> static_handle o h p head = Ret r -> rs_status r <> 500 -> clean (static_messages o h p head).
  Proof.
    intros He Hp Hr E Hn. pose proof (static_reports _ _ _ _ _ E) as (_ & _ & R2).
    unfold static_handle, Messages.static_messages in *. destruct (get_relative_path h p) as [rel| | |] eqn:Er; cbn [obind] in E; try discriminate.
    pose proof (printable_relative _ _ _ Hp Er) as Hrel.
    destruct (sanitize_path o (st_root h) rel) eqn:Es.
    - injection E as <-. enough (K : sanitize_messages o (st_root h) rel ++ file_messages o b head = []) by (rewrite K; constructor).
      apply R2. unfold file_response, head_response, get_response in *. destruct (is_readable o b); [|now right].
      destruct head; [destruct (get_file_size o b)|destruct (read_file o b)]; cbn in *; auto; congruence.
    - apply clean_app. split; [apply complaints_sanitize; auto|]. is_clean.
  Qed.

  (** The program says nothing of level info. *)
  Lemma complaints_infos ms : complaints ms -> infos ms = [].
  Proof. induction 1 as [|m ms H _ IH]; [reflexivity|]. unfold infos in *. cbn [filter]. destruct H as [H|[H|H]]; now rewrite H. Qed.
  Lemma complaints_program page a rq w : complaints (program_messages path_error fails page a rq w).
  Proof.
    unfold program_messages, target_messages. cbv zeta. apply Forall_app. split.
    - destruct (find_route _ _ _ _); [constructor|]. destruct (_ || _); [|constructor]. destruct (find _ _); [apply complaints_static|constructor].
    - destruct (a_status_404_file_path a); [constructor|]. destruct (snd _); try constructor. destruct (_ =? _); [apply complaints_file|constructor].
  Qed.
End Static.

(** ** The console *)
Lemma less_severe_iff x l : less_severe x l <-> severity x < severity l.
Proof.
  split.
  - intros (a & b & c & E). unfold levels in E.
    repeat (destruct a as [|? a]; cbn [List.app] in E; [injection E as <- E; repeat (destruct b as [|? b]; cbn [List.app] in E; [injection E as <- E; reflexivity|injection E as <- E]); destruct b; discriminate|injection E as <- E]).
    destruct a; discriminate.
  - intros H. destruct x, l; try (cbn in H; lia);
    match goal with |- less_severe ?x ?l =>
      let rec split_at y pre rest k := lazymatch rest with y :: ?r => k pre r | ?z :: ?r => split_at y (pre ++ [z]) r k end in
      split_at x (@nil level) constr:([LTrace; LDebug; LInfo; LWarn; LErr; LCritical; LOff]) ltac:(fun a r =>
        split_at l (@nil level) r ltac:(fun b c => exists a, b, c; reflexivity)) end.
Qed.
Lemma console_shown l : forall marks ms, length marks = length ms ->
  Forall (fun mk => ~ In 10 (fst mk) /\ ~ In 10 (snd mk)) marks -> Forall (fun m => ~ In 10 (m_text m)) ms ->
  exists ls, is_lines (console l marks ms) ls /\ shown l marks ms ls.
Proof.
  induction marks as [|[stamp trace] marks IH]; intros [|m ms] Hl Hm Ht; try discriminate Hl; cbn [console].
  - exists []. split; [split; [reflexivity|constructor]|constructor].
  - injection Hl as Hl. inversion Hm as [|? ? [Hs Htr] Hm']; inversion Ht as [|? ? Hx Ht']; subst. cbn [fst snd] in *.
    destruct (IH ms Hl Hm' Ht') as (ls & [E N] & S). unfold lets_through. destruct (severity l <=? severity (m_level m)) eqn:L.
    + eexists. split; [|apply shown_line with (word := level_name (m_level m)); [rewrite less_severe_iff; lia|now destruct (m_level m)|exact S]].
      split.
      * cbn [map concat]. rewrite E. unfold console_line. now rewrite <- !app_assoc.
      * constructor; [|exact N]. rewrite !in_app_iff. intros [K|[K|[K|[K|[K|[K|K]]]]]]; try tauto.
        -- cbv in K. intuition discriminate.
        -- cbv in K. intuition discriminate.
        -- destruct (m_level m); cbv in K; intuition discriminate.
        -- cbv in K. intuition discriminate.
    + exists ls. split; [split; [exact E|exact N]|]. constructor; [rewrite less_severe_iff; lia|exact S].
Qed.
Lemma console_forged l a m s t b marks0 stamp trace marks1 : length marks0 = length a ->
  severity l <= severity (m_level m) -> m_text m = s ++ [10] ++ t ++ [10] ->
  exists x y, console l (marks0 ++ (stamp, trace) :: marks1) (a ++ m :: b) = x ++ [10] ++ t ++ [10] ++ y.
Proof.
  revert a. induction marks0 as [|[st tr] marks0 IH]; intros [|n a] Hl Hs Ht; try discriminate Hl; cbn [console List.app].
  - unfold lets_through. replace (severity l <=? severity (m_level m)) with true by lia. unfold console_line. rewrite Ht.
    eexists (str "[" ++ stamp ++ str "] [" ++ level_name (m_level m) ++ str "] " ++ trace ++ s), _.
    rewrite <- !app_assoc. reflexivity.
  - injection Hl as Hl. destruct (IH a Hl Hs Ht) as (x & y & E). rewrite E. eexists (_ ++ x), y. now rewrite <- app_assoc.
Qed.

(** ** Computing a narrated session *)
Section Narrate.
  Context {W : Type}.
  Variable app : request -> W -> W * app_answer.
  Variable cs : bool.
  Variable T : tree.
  Variable app_says : request -> W -> list message.
  Variable thrown : request -> W -> bytes.
  Variable unhandled : conn -> W -> bytes.
  Variable others : W -> W -> Prop.
  Variable t0 : Z.
  Variable w0 : W.
  Fixpoint narrate (ss : list scripts) (r : option result) (c : conn) (tr : trace) (w : W) (ms : list message) : out (option result * conn * trace * W * list message) :=
    match ss with
    | [] => Ret (r, c, tr, w, ms)
    | s :: ss' =>
      match r with
      | Some DiscardConnection => Fuel
      | _ => let! (r', c', ev, w') := process W app cs T s c w in
             narrate ss' (Some r') c' (tr ++ ev) w' (ms ++ process_messages W app cs T app_says thrown unhandled s c w)
      end
    end.
  Lemma narrate_narrated (A : scripts -> Prop) ss : Forall scripts_ok ss -> Forall A ss -> forall r c tr w ms r' c' tr' w' ms',
    narrated W app cs T app_says thrown unhandled others t0 w0 A r c tr w ms -> narrate ss r c tr w ms = Ret (r', c', tr', w', ms') ->
    narrated W app cs T app_says thrown unhandled others t0 w0 A r' c' tr' w' ms'.
  Proof.
    induction ss as [|s ss IH]; intros H1 H2 r c tr w ms r' c' tr' w' ms' HN E; cbn [narrate] in E.
    - now injection E as <- <- <- <- <-.
    - inversion H1; inversion H2; subst.
      destruct (process W app cs T s c w) as [[[[r1 c1] ev1] w1]| | |] eqn:Ep; try (destruct r as [[]|]; discriminate E).
      assert (Hr : r <> Some DiscardConnection) by (intros ->; discriminate E).
      eapply IH; [assumption|assumption| |].
      + eapply narrated_process; eauto.
      + destruct r as [[]|]; try exact E. now destruct Hr.
  Qed.
  Lemma by_narrate (A : scripts -> Prop) ss r (Phi : conn -> trace -> W -> list message -> Prop) : Forall scripts_ok ss -> Forall A ss ->
    match narrate ss None (fresh_conn t0) [] w0 [] with Ret (r', c, tr, w, ms) => r' = r /\ Phi c tr w ms | _ => False end ->
    exists c tr w ms, narrated W app cs T app_says thrown unhandled others t0 w0 A r c tr w ms /\ Phi c tr w ms.
  Proof.
    intros H1 H2. destruct (narrate ss None (fresh_conn t0) [] w0 []) as [[[[[r' c] tr] w] ms]| | |] eqn:E; try easy.
    intros [-> HP]. exists c, tr, w, ms. split; [|exact HP]. eapply narrate_narrated; eauto. constructor.
  Qed.
End Narrate.
