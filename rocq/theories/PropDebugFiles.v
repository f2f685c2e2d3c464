(** C126: what the console shows at level debug about static files. *)
From Verif Require Import Base BaseLemmas Http FileSys Files SpecFiles SpecConn ConnTerm FilesProofs FilesServe FilesText Router SpecRouter RouterProofs App AppProofs SpecProgram ProgramProofs
  Huffman DynTable HpackDec SpecTable SpecHpack Conn AccessLog Messages SpecMessages ConnLemmas ConnBasic ConnWit MessagesProofs MessagesRule MessagesFiles DebugMessages SpecDebug DebugProofs FilesDebug SpecDebugFiles FilesDebugProofs.
From Verif Require Import PropFiles PropApp PropProgram PropMessages PropPrivate PropDebug.

(** The messages above level debug are those that are shown at the default level (C108-C109). *)
Theorem C126_above : forall path_error fails page o h p head a rq w,
  louder (static_debug path_error fails o h p head) = static_messages path_error fails o h p head /\
  louder (program_debug path_error fails page a rq w) = program_messages path_error fails page a rq w.
Proof. intros. split; [apply louder_static|apply louder_program]. Qed.
Print Assumptions C126_above.

(** A request for a published file has exactly the messages that SpecDebugFiles.v says: the
    true place, size and type of the file that is sent, or the place where there is none. *)
Theorem C126_files : forall path_error fails o url root p head ms,
  real_place (os_fs o) (os_cwd o) -> ~ In 0 root -> (exists rest, p = url ++ rest) ->
  (file_told o url root p head ms <-> ms = asides (static_debug path_error fails o (Static url root) p head)).
Proof.
  intros pe fails o url root p head ms Hc Hz Hp. apply told_exactly; [exact Hc|exact Hz|]. apply matches_prefix. exact Hp.
Qed.
Print Assumptions C126_files.

Example C126_files_case :
  map (fun p => static_debug (fun _ _ => str "error") (fun _ => NotRead) an_os www (str p) false)
      ["/static/in"; "/static/link/passwd"; "/static/bad"; "/static/none"; "/static/key"; "/static/none/../link/passwd"]%string =
  [[debug (str "Read file: /srv/www/a.txt (4 bytes)"); debug (str "serving static file: /srv/www/a.txt (4 bytes, text/plain; charset=utf-8)")];
   [warn (str "Directory traversal attempt blocked: link/passwd (base: /srv/www)"); warn (str "invalid file path requested: /static/link/passwd")];
   [err (str "Failed to read file: /srv/www/bad"); err (str "failed to read file: /srv/www/bad")];
   [debug (str "file not found or not readable: /srv/www/none")];
   [debug (str "file not found or not readable: /srv/www/key")];
   [debug (str "Read file: /srv/www/link/passwd (4 bytes)"); debug (str "serving static file: /srv/www/link/passwd (4 bytes, application/octet-stream)")]] /\
  static_debug (fun _ _ => str "error") (fun _ => NotRead) an_os www (str "/static/") true =
    [debug (str "Returning metadata for static file: /srv/www/index.html (5 bytes, text/html; charset=utf-8)")].
Proof. vm_compute. split; reflexivity. Qed.

(** So it is in the program, with the page for 404. *)
Theorem C126_program : forall path_error fails page a rq w ms, args_ok a (w_os w) ->
  (program_told page a (w_os w) (w_no_new_privs w) (rq_path rq) (rq_method rq) ms <-> ms = asides (program_debug path_error fails page a rq w)).
Proof. intros. now apply program_told_exactly. Qed.
Print Assumptions C126_program.

Example C126_program_case : args_ok some_args (w_os a_world) /\
  map (fun p => program_debug (fun _ _ => str "error") (fun _ => NotRead) plain_page some_args (ask "GET" p) a_world) ["/static/none"; "/x"; "/_ion/status"]%string =
  [[debug (str "file not found or not readable: /srv/www/none");
    debug (str "Read file: /srv/www/a.txt (4 bytes)"); debug (str "serving static file: /srv/www/a.txt (4 bytes, text/plain; charset=utf-8)")];
   [debug (str "Read file: /srv/www/a.txt (4 bytes)"); debug (str "serving static file: /srv/www/a.txt (4 bytes, text/plain; charset=utf-8)")]; []].
Proof. split; [exact some_args_ok|]. vm_compute. reflexivity. Qed.

(** On a connection, every request has these messages right after its fields. *)
Theorem C126_connection : forall path_error fails page a cs T thrown unhandled (others : world -> world -> Prop) t0 w0 A r c tr w ms,
  args_ok a (w_os w0) -> (forall w w', others w w' -> same_files w w') ->
  verbose world (main_app page a) cs T (program_debug path_error fails page a) thrown unhandled others t0 w0 A r c tr w ms ->
  forall rq an, In (rq, an) (requests tr) ->
  exists before said after x, ms = before ++ map field_line (rq_headers rq) ++ said ++ after /\
    program_told page a (w_os w0) (w_no_new_privs w0) (rq_path rq) (rq_method rq) (asides said) /\
    an = Some x /\ program_answer page a (w_os w0) (w_no_new_privs w0) (rq_path rq) (rq_method rq) x.
Proof.
  intros pe fails page a cs T thrown unh others t0 w0 A r c tr w ms Ha Ho V rq an H.
  assert (Tr : treated (main_app page a) (program_debug pe fails page a) (kept (w_os w0) (w_no_new_privs w0)) ms rq an); [|destruct Tr
    as (w1 & x & y & [K1 K2] & -> & Ea)].
  - apply (C125_requests _ _ _ _ _ _ _ others _ _ _ _ _ _ _ _ (kept (w_os w0) (w_no_new_privs w0)) (conj eq_refl eq_refl)) with (3 := V); [| |exact H].
    + intros rq' w'. now apply main_keeps.
    + intros w1 w2 Hw [K1 K2]. destruct (Ho _ _ Hw) as [E1 E2]. split; congruence.
  - assert (Ha1 : args_ok a (w_os w1)) by now rewrite K1.
    destruct (program_answers page a rq w1 Ha1) as (w2 & z & E & P & _). rewrite E in Ea. cbn [snd answer_of] in Ea.
    exists x, (program_debug pe fails page a rq w1), y, z. split; [reflexivity|]. rewrite K1, K2 in P.
    pose proof (program_told_ok pe fails page a rq w1 Ha1) as Q. rewrite K1, K2 in Q. auto.
Qed.
Print Assumptions C126_connection.

(** ** No client can put a line of its own on the console: false, also at level debug (see
    C108 and C125).  What is not there is named, as asked for. *)
Lemma name_elements (n : bytes) : n <> [] -> ~ In SLASH n -> elements n = [n] /\ absolute n = false.
Proof.
  intros N H. unfold elements. rewrite split_plain by exact H. destruct n as [|c n]; [easy|]. split; [reflexivity|].
  cbn. assert (c <> SLASH) by (intros ->; apply H; now left). lia.
Qed.
Lemma tidy_name fs l0 (n : bytes) : real_place fs l0 -> n <> [] -> n <> dot -> n <> dotdot -> tidy (l0 ++ [n]) = l0 ++ [n].
Proof.
  intros H N1 N2 N3. unfold tidy. 
  assert (E : names (l0 ++ [n]) = l0 ++ [n]).
  { assert (F : Forall (fun c : bytes => c <> [] /\ c <> dot /\ c <> dotdot) (l0 ++ [n])).
    { apply Forall_app. split; [|repeat constructor; auto]. apply Forall_forall. intros c Hc. apply in_split in Hc as (a & b & E).
      destruct (H a c b E) as (H1 & H2 & H3 & _). auto. }
    revert F. generalize (l0 ++ [n]). clear. intros l. induction l as [|c l IH] using rev_ind; intros F; [reflexivity|].
    apply Forall_app in F as [F1 F2]. apply Forall_cons_iff in F2 as [(H1 & H2 & H3) _]. unfold names in *. rewrite fold_left_app, IH by exact F1. cbn [fold_left].
    rewrite (proj2 (bytes_eqb_neq c dotdot) H3), (proj2 (bytes_eqb_neq c dot) H2). now destruct c. }
  rewrite E, last_last. cbn [existsb]. rewrite (proj2 (bytes_eqb_neq n []) N1), (proj2 (bytes_eqb_neq n dot) N2), (proj2 (bytes_eqb_neq n dotdot) N3). apply app_nil_r.
Qed.
Lemma missing_name o root l0 (n : bytes) : real_place (os_fs o) (os_cwd o) -> root_at o root l0 -> os_fs o l0 = Some (EDir true) -> os_fs o (l0 ++ [n]) = None ->
  n <> [] -> n <> dot -> n <> dotdot -> ~ In SLASH n -> ~ In 0 n ->
  textual o l0 n (l0 ++ [n]) /\ forall l io b, stands_at o (l0 ++ [n]) l -> os_fs o l <> Some (EFile true io b).
Proof.
  intros Hc Hr Hd Hn N1 N2 N3 N4 N5. destruct (root_status o Hc _ l0 Hr) as (_ & _ & _ & _ & Hl0). destruct (name_elements n N1 N4) as [E A].
  assert (Q : textual o l0 n (l0 ++ [n])).
  { apply (textual_path _ _ _ _ [] n [] l0); [exact E|constructor|rewrite A; apply resolves_done| |symmetry; now apply (tidy_name (os_fs o))].
    rewrite A. cbn [List.app]. rewrite c_str_id by exact N5. now apply no_such_name. }
  split; [exact Q|]. intros l io b S. destruct (text_path o Hc root l0 n _ Hr Q) as (_ & Hcl & Hst).
  apply Hst in S. rewrite resolve_string in S.
  2:{ split; [exact Hcl|]. apply Forall_app. split; [exact (proj2 (real_clean _ _ Hl0))|repeat constructor; exact N5]. }
  rewrite real_walk in S by exact Hl0. rewrite walk_cons, Hd in S. destruct n as [|x n]; [easy|]. cbn [null negb] in S.
  rewrite (proj2 (bytes_eqb_neq _ dot) N2), (proj2 (bytes_eqb_neq _ dotdot) N3), Hn in S. discriminate S.
Qed.
Theorem C126_forged_refuted : forall path_error fails o url root l0 (x L : bytes) head l stamp trace,
  real_place (os_fs o) (os_cwd o) -> root_at o root l0 -> os_fs o l0 = Some (EDir true) ->
  let name := x ++ [10] ++ L in
  os_fs o (l0 ++ [name]) = None -> ~ In 47 name -> ~ In 63 name -> ~ In 0 name -> In l [LTrace; LDebug] ->
  let p := url ++ str "/" ++ name in
  static_handle o (Static url root) p head = Ret (Response 404 [] []) /\
  static_debug path_error fails o (Static url root) p head = [Msg LDebug (str "file not found or not readable: " ++ written (l0 ++ [name]))] /\
  exists y, console l [(stamp, trace)] (static_debug path_error fails o (Static url root) p head) = y ++ [10] ++ L ++ [10].
Proof.
  intros pe fails o url root l0 x L head l stamp trace Hc Hr Hd name Hn N1 N2 N3 Hl p.
  assert (M1 : name <> []) by (unfold name; now destruct x).
  assert (M2 : In 10 name) by (unfold name; apply in_or_app; right; now left).
  assert (M3 : name <> dot) by (intros E; rewrite E in M2; destruct M2 as [M2|[]]; discriminate M2).
  assert (M4 : name <> dotdot) by (intros E; rewrite E in M2; destruct M2 as [M2|[M2|[]]]; discriminate M2).
  destruct (missing_name o root l0 name Hc Hr Hd Hn M1 M3 M4 N1 N3) as [Q S].
  assert (A : SpecFiles.asks url p name) by (apply (asks_plain url name); assumption).
  assert (Hz : ~ In 0 root) by apply Hr.
  assert (Hm : static_matches (Static url root) p = true) by (apply matches_prefix; now exists (str "/" ++ name)).
  assert (B : below l0 (l0 ++ [name])) by now exists [name].
  pose proof (file_sound o url root p head _ Hc Hz Hm (file_text_missing o url root p head l0 name _ Hr A Q B S)) as E. split; [exact E|].
  pose proof (proj1 (told_exactly pe fails o Hc url root p head _ Hz Hm) (told_text_missing o url root p head l0 name _ Hr A Q B S)) as T.
  assert (F : static_debug pe fails o (Static url root) p head = [Msg LDebug (str "file not found or not readable: " ++ written (l0 ++ [name]))]).
  { revert T. unfold static_debug. rewrite (asks_path (Static url root) p name A).
    destruct (text_path o Hc root l0 name _ Hr Q) as (Es & _). pose proof (proj2 (within_below _ _) B) as B1. cbn [st_root]. assert (Es1 : sanitize_path o root name = Some (path_string (l0 ++ [name]))) by (etransitivity; [exact Es|]; match goal with |- (if ?x then _ else _) = _ => replace x with true by (symmetry; exact B1) end; reflexivity). clear Es. rename Es1 into Es. rewrite Es.
    pose proof (sanitize_said pe o root name) as Sn. rewrite Es in Sn. rewrite Sn. cbn [List.app].
    unfold file_debug. destruct (is_readable o (path_string (l0 ++ [name]))) eqn:Ir; [|reflexivity]. exfalso.
    rewrite (handle_eq o (Static url root) p head name A) in E. cbn [st_root] in E. rewrite Es in E. injection E as E. revert E.
    unfold file_response. rewrite Ir. unfold head_response, get_response. destruct head; [destruct (get_file_size _ _)|destruct (read_file _ _)]; discriminate. }
  split; [exact F|]. rewrite F. clear -Hl.
  assert (W : exists z, written (l0 ++ [name]) = z ++ [10] ++ L).
  { unfold written. destruct (l0 ++ [name]) as [|c k] eqn:E; [now destruct l0|]. rewrite <- E, flat_map_app. cbn [flat_map]. unfold name.
    exists (flat_map (fun c => 47 :: c) l0 ++ 47 :: x). rewrite app_nil_r, <- app_assoc. reflexivity. }
  destruct W as [z ->]. unfold console. cbn [console].
  assert (Lt : forall t, lets_through l (Msg LDebug t) = true) by (intros t; destruct Hl as [<-|[<-|[]]]; reflexivity). rewrite Lt.
  unfold console_line. cbn [m_text m_level].
  eexists (str "[" ++ stamp ++ str "] [" ++ level_name LDebug ++ str "] " ++ trace ++ str "file not found or not readable: " ++ z). rewrite app_nil_r, <- !app_assoc. reflexivity.
Qed.
Print Assumptions C126_forged_refuted.

(** The shipped program with a page for 404, over a connection at level debug. *)
Definition missing_path : bytes := str "/static/none" ++ [10] ++ forged_line.
Definition w_missing : bytes := [0; 0; lenZ missing_path + 3; 1; 5; 0; 0; 0; 1; 130; 4; lenZ missing_path] ++ missing_path.
Example C126_case : args_ok some_args (w_os a_world) /\
  (root_at an_os (st_root www) www_at /\ os_fs an_os www_at = Some (EDir true) /\
   os_fs an_os (www_at ++ [str "none" ++ [10] ++ forged_line]) = None /\
   ~ In 47 (str "none" ++ [10] ++ forged_line) /\ ~ In 63 (str "none" ++ [10] ++ forged_line) /\ ~ In 0 (str "none" ++ [10] ++ forged_line)) /\
  forall T cs, exists c tr w ms,
  verbose world (main_app plain_page some_args) cs T (program_debug (fun _ _ => str "error") (fun _ => NotOpened) plain_page some_args) oops boom eq 0 a_world any (Some WantRead) c tr w ms /\
  received tr = w_hello ++ w_missing /\ map (fun y => rq_path (fst y)) (requests tr) = [missing_path] /\
  firstn 5 (skipn 15 ms) = [
    debug (str " - request header: :method: GET");
    debug (str " - request header: :path: " ++ missing_path);
    debug (str "file not found or not readable: /srv/www/none" ++ [10] ++ forged_line);
    debug (str "Read file: /srv/www/a.txt (4 bytes)");
    debug (str "serving static file: /srv/www/a.txt (4 bytes, text/plain; charset=utf-8)")].
Proof.
  split; [exact some_args_ok|]. split; [split; [exact www_root|]; split; [reflexivity|]; split; [reflexivity|]; repeat split; no_zero|].
  intros T cs. apply (by_tell (main_app plain_page some_args) cs T _ oops boom eq 0 a_world any [deliver [octets (w_hello ++ w_missing)]]); [scripts_ok|apply Forall_any|].
  destruct cs; vm_compute; repeat split.
Qed.
