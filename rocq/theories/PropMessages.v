(** C108-C110: what the console says about connections. *)
From Verif Require Import Base BaseLemmas Huffman DynTable HpackDec Http Conn SpecFrames SpecConn ConnBasic ConnWit FileSys Files FilesServe PropFiles SpecFiles FilesProofs Router RouterProofs App AppProofs PropApp AccessLog Messages SpecMessages
  MessagesProofs MessagesRule MessagesFiles.

(** ** C108.  No client can put a line of its own on the console (false, see
    [C108_forged_refuted]). *)

(** The messages about a connection are printable whatever the client sends, if those of the
    application are. *)
Theorem C108_connection_partial : forall W app cs T app_says thrown unhandled others t0 (w0 : W) A r c tr w ms,
  (forall rq w, Forall (fun m => printable (m_text m)) (app_says rq w)) ->
  (forall rq w, printable (thrown rq w)) -> (forall c w, printable (unhandled c w)) ->
  narrated W app cs T app_says thrown unhandled others t0 w0 A r c tr w ms ->
  Forall (fun m => printable (m_text m)) ms.
Proof. intros W app cs T says thrown unh others t0 w0 A r c tr w ms H1 H2 H3 H. exact (clean_narrated W app cs T says thrown unh H1 H2 H3 _ _ _ _ _ _ _ _ _ H). Qed.
Print Assumptions C108_connection_partial.

Definition no_words {W} (_ : request) (_ : W) : list message := [].
Definition oops {W} (_ : request) (_ : W) : bytes := str "oops".
Definition boom {W} (_ : conn) (_ : W) : bytes := str "boom".
(** A header block with an index the table does not have. *)
Definition w_index : bytes := [0; 0; 2; 1; 5; 0; 0; 0; 1; 130; 254].
Example C108_connection_case : forall T cs, exists c tr w ms,
  narrated unit failing cs T no_words oops boom eq 0 tt any (Some DiscardConnection) c tr w ms /\
  received tr = w_hello ++ w_get ++ w_index /\
  ms = [info (str "valid HTTP/2 preface received"); err (str "error processing request: oops"); info (str "500 status code sent w/headers");
        err (str "invalid dynamic table index lookup for header (idx: 126, sz: 0)"); err (str "protocol error. closing connection")].
Proof.
  intros T cs. apply (by_narrate failing cs T no_words oops boom eq 0 tt any [deliver [octets (w_hello ++ w_get ++ w_index)]]); [scripts_ok|apply Forall_any|].
  destruct cs; vm_compute; repeat split.
Qed.

(** Of messages without newlines the console shows exactly one line each, those of lower
    levels hidden. *)
Theorem C108_lines : forall l marks ms, length marks = length ms ->
  Forall (fun mk => ~ In 10 (fst mk) /\ ~ In 10 (snd mk)) marks -> Forall (fun m => ~ In 10 (m_text m)) ms ->
  exists ls, is_lines (console l marks ms) ls /\ shown l marks ms ls.
Proof. exact console_shown. Qed.
Print Assumptions C108_lines.

Definition noon : bytes * bytes := (str "2026-01-01 12:00:00.000", []).
Definition later : bytes * bytes := (str "2026-01-01 12:00:00.001", str "[7f] ").
Example C108_lines_case :
  let ms := [info (str "valid HTTP/2 preface received"); err (str "protocol error. closing connection")] in
  console LInfo [noon; later] ms = str "[2026-01-01 12:00:00.000] [info] valid HTTP/2 preface received" ++ [10] ++
    str "[2026-01-01 12:00:00.001] [error] [7f] protocol error. closing connection" ++ [10] /\
  console LErr [noon; later] ms = str "[2026-01-01 12:00:00.001] [error] [7f] protocol error. closing connection" ++ [10].
Proof. split; reflexivity. Qed.

(** Static files: printable requests lead to printable messages. *)
Theorem C108_static_partial : forall path_error fails o h p head r,
  (forall a b, printable a -> printable b -> printable (path_error a b)) ->
  printable p -> printable (st_root h) -> static_handle o h p head = Ret r -> rs_status r <> 500 ->
  Forall (fun m => printable (m_text m)) (static_messages path_error fails o h p head).
Proof. exact static_clean. Qed.
Print Assumptions C108_static_partial.

(** Any request refused with 403 also is with a query string after it, and then a line [L] of
    the client's choice stands on the console, at the default level and those below it. *)
Theorem C108_forged_refuted : forall path_error fails o h p0 L head r l stamp1 trace1 stamp2 trace2,
  static_matches h p0 = true -> ~ In 63 p0 -> p0 <> st_prefix h -> p0 <> st_prefix h ++ str "/" ->
  static_handle o h p0 head = Ret r -> rs_status r = 403 -> In l [LTrace; LDebug; LInfo; LWarn] ->
  static_handle o h (p0 ++ str "?" ++ [10] ++ L ++ [10]) head = Ret r /\
  exists x y, console l [(stamp1, trace1); (stamp2, trace2)] (static_messages path_error fails o h (p0 ++ str "?" ++ [10] ++ L ++ [10]) head) =
    x ++ [10] ++ L ++ [10] ++ y.
Proof.
  intros pe fails o h p0 L head r l s1 t1 s2 t2 H1 H2 H3 H4 E Es Hl.
  destruct (forged_403 pe fails o h p0 ([10] ++ L ++ [10]) head r H1 H2 H3 H4 E Es) as [E1 [m E2]].
  split; [exact E1|]. change (str "?" ++ [10] ++ L ++ [10]) with (63 :: [10] ++ L ++ [10]). rewrite E2.
  apply (console_forged l [m] _ (str "invalid file path requested: " ++ p0 ++ str "?") L [] [(s1, t1)] s2 t2 []); [reflexivity| |].
  - destruct Hl as [<-|[<-|[<-|[<-|[]]]]]; cbn; lia.
  - cbn [m_text warn]. rewrite <- !app_assoc. reflexivity.
Qed.
Print Assumptions C108_forged_refuted.

(** The shipped program, over a connection: a GET request whose :path is
    "/static/../x?", a newline, a forged line and a newline. *)
Definition forged_line : bytes := str "[2026-01-01 12:00:00.000] [critical] disk full".
Definition forged_path : bytes := str "/static/../x?" ++ [10] ++ forged_line ++ [10].
Definition w_forged : bytes := [0; 0; lenZ forged_path + 3; 1; 5; 0; 0; 0; 1; 130; 4; lenZ forged_path] ++ forged_path.
Example C108_forged_case : forall T cs, exists c tr w ms,
  narrated world (main_app plain_page some_args) cs T
    (program_messages (fun _ _ => str "error") (fun _ => NotOpened) plain_page some_args) oops boom eq 0 a_world any (Some WantRead) c tr w ms /\
  received tr = w_hello ++ w_forged /\
  console LInfo (repeat noon (length ms)) ms =
    str "[2026-01-01 12:00:00.000] [info] valid HTTP/2 preface received" ++ [10] ++
    str "[2026-01-01 12:00:00.000] [warning] Directory traversal attempt blocked: ../x (base: /srv/www)" ++ [10] ++
    str "[2026-01-01 12:00:00.000] [warning] invalid file path requested: /static/../x?" ++ [10] ++
    forged_line ++ [10] ++ [10] ++
    str "[2026-01-01 12:00:00.000] [info] 403 status code sent w/headers" ++ [10].
Proof.
  intros T cs. apply (by_narrate (main_app plain_page some_args) cs T _ oops boom eq 0 a_world any [deliver [octets (w_hello ++ w_forged)]]); [scripts_ok|apply Forall_any|].
  destruct cs; vm_compute; repeat split.
Qed.

(** ** C109.  What goes wrong is reported, and nothing else is. *)

(** A header block that is read without undefined behaviour leads to one message, an error,
    if it is refused, and to none if it is accepted. *)
Theorem C109_blocks : forall T t data res t', hpack_decode T t data = Ret (res, t') ->
  match res with
  | Val _ => decode_messages T t data = []
  | Error _ => exists text, decode_messages T t data = [Msg LErr text]
  end.
Proof.
  intros T t data res t' E. apply decode_fits in E. destruct res; [exact E|]. destruct E as ([l x] & -> & El). cbn in El. rewrite El. eauto.
Qed.
Print Assumptions C109_blocks.

Example C109_blocks_case : forall T,
  hpack_decode T (dt_init 4096) [130; 132] = Ret (Val [Hdr (str ":method") (str "GET"); Hdr (str ":path") (str "/")], dt_init 4096) /\
  decode_messages T (dt_init 4096) [130; 132] = [] /\
  hpack_decode T (dt_init 4096) [130; 254] = Ret (Error ProtocolError, dt_init 4096) /\
  decode_messages T (dt_init 4096) [130; 254] = [Msg LErr (str "invalid dynamic table index lookup for header (idx: 126, sz: 0)")] /\
  decode_messages T (dt_init 4096) [130; 4; 5; 47] = [Msg LErr (str "Insufficient data for string")].
Proof. intros T. vm_compute. repeat split. Qed.

(** Static files: 403 and 500 are reported, twice each, 200 and 404 are not. *)
Theorem C109_files : forall path_error fails o h p head r, static_handle o h p head = Ret r ->
  let ms := static_messages path_error fails o h p head in
  Forall alarming ms /\
  (rs_status r = 403 -> exists m, ms = [m; Msg LWarn (str "invalid file path requested: " ++ p)]) /\
  (rs_status r = 500 -> exists a m, ms = [a; m] /\ m_level m = LErr) /\
  (rs_status r = 200 \/ rs_status r = 404 -> ms = []).
Proof. intros pe fails o h p head r E ms. split; [apply complaints_static|]. exact (static_reports pe fails o h p head r E). Qed.
Print Assumptions C109_files.

Example C109_files_case :
  map (fun p => static_messages (fun _ _ => str "error") (fun _ => NotRead) an_os www (str p) false)
      ["/static/a.txt"; "/static/link/passwd"; "/static/bad"; "/static/none"]%string =
  [[]; [warn (str "Directory traversal attempt blocked: link/passwd (base: /srv/www)"); warn (str "invalid file path requested: /static/link/passwd")];
   [err (str "Failed to read file: /srv/www/bad"); err (str "failed to read file: /srv/www/bad")]; []].
Proof. vm_compute. reflexivity. Qed.

(** A connection without warnings or errors on the console has seen no failed read or write
    and no exception; if it is over, then because its handshake failed, because the client
    closed it or because the client sent GOAWAY. *)
Theorem C109_nothing_unreported : forall W app cs T app_says thrown unhandled others t0 (w0 : W) A r c tr w ms,
  narrated W app cs T app_says thrown unhandled others t0 w0 A r c tr w ms -> ~ alarmed ms ->
  Forall calm tr /\
  (r = Some DiscardConnection ->
     (exists e, In (EvHandshakeError e) tr) \/ In (EvReadError ConnectionClosed) tr \/ client_left (received tr)).
Proof.
  intros W app cs T says thrown unh others t0 w0 A r c tr w ms H Ha.
  destruct (narrated_calm W app cs T says thrown unh _ _ _ _ _ _ _ _ _ H Ha) as [H1 H2]. split; [exact H1|]. intros E. now apply H2.
Qed.
Print Assumptions C109_nothing_unreported.

Definition w_bye : bytes := [0; 0; 8; 7; 0; 0; 0; 0; 0; 0; 0; 0; 0; 0; 0; 0; 0].
Example C109_nothing_unreported_case : forall T cs, exists c tr w ms,
  narrated unit hi cs T no_words oops boom eq 0 tt any (Some DiscardConnection) c tr w ms /\ ~ alarmed ms /\
  received tr = w_hello ++ w_get ++ w_bye /\ Forall (fun e => e <> EvReadError ConnectionClosed) tr.
Proof.
  intros T cs. apply (by_narrate hi cs T no_words oops boom eq 0 tt any [deliver [octets (w_hello ++ w_get ++ w_bye)]]); [scripts_ok|apply Forall_any|].
  destruct cs; vm_compute; (split; [reflexivity|]); (split; [|repeat split; repeat constructor; discriminate]);
    intros (m & Hm & Ha); repeat (destruct Hm as [<-|Hm]; [destruct Ha as [Ha|[Ha|Ha]]; discriminate|]); exact Hm.
Qed.

(** A connection that goes on after a warning or an error has met a failed read, an
    incomplete request, or a request about which the application complained or failed. *)
Theorem C109_nothing_invented : forall W app cs T app_says thrown unhandled others t0 (w0 : W) A c tr w ms,
  narrated W app cs T app_says thrown unhandled others t0 w0 A (Some WantRead) c tr w ms -> alarmed ms ->
  Exists (fun e => ~ calm e) tr \/ Exists incomplete_request tr \/
  exists rq a w, In (EvRequest rq a) tr /\ (alarmed (app_says rq w) \/ exists w', app rq w = (w', Fails)).
Proof. intros W app cs T says thrown unh others t0 w0 A c tr w ms H Ha. exact (narrated_cause W app cs T says thrown unh _ _ _ _ _ _ _ _ _ H eq_refl Ha). Qed.
Print Assumptions C109_nothing_invented.

(** GET without :path. *)
Definition w_no_path : bytes := [0; 0; 1; 1; 5; 0; 0; 0; 1; 130].
Example C109_nothing_invented_case : forall T cs, exists c tr w ms,
  narrated unit hi cs T no_words oops boom eq 0 tt any (Some WantRead) c tr w ms /\ alarmed ms /\
  received tr = w_hello ++ w_no_path /\ logged tr = [([Hdr (str ":method") (str "GET")], 400, 0)].
Proof.
  intros T cs. apply (by_narrate hi cs T no_words oops boom eq 0 tt any [deliver [octets (w_hello ++ w_no_path)]]); [scripts_ok|apply Forall_any|].
  destruct cs; vm_compute; (split; [reflexivity|]); (split; [|repeat split]);
    exists (err (str "invalid request: missing path or method")); (split; [auto 10|right; left; reflexivity]).
Qed.

(** The page for 404: it leads to messages only when it is to be shown, then exactly if it may
    be opened and reading it fails.  (That there is no such file, or that it may not be opened,
    is not reported.) *)
Theorem C109_page : forall path_error fails page a rq w w' r,
  let path := a_status_404_file_path a in
  let others := program_messages path_error fails page (without_404 a) rq w in
  path <> [] -> ~ In 0 path -> main_app page a rq w = (w', Answers r) ->
  (rs_status r <> 404 -> program_messages path_error fails page a rq w = others) /\
  (rs_status r = 404 ->
   (forall l b, resolves (os_fs (w_os w)) (os_links (w_os w)) (if absolute path then [] else os_cwd (w_os w)) (elements path) l ->
      os_fs (w_os w) l = Some (EFile true false b) ->
      exists m, m_level m <> LInfo /\ program_messages path_error fails page a rq w = others ++ [m; err (str "failed to read file: " ++ path)]) /\
   ((forall l b, resolves (os_fs (w_os w)) (os_links (w_os w)) (if absolute path then [] else os_cwd (w_os w)) (elements path) l ->
      os_fs (w_os w) l <> Some (EFile true false b)) -> program_messages path_error fails page a rq w = others)).
Proof.
  intros pe fails page a rq w w' r path others Hp Hz E.
  assert (T : target_messages pe fails page a rq w = others).
  { unfold others, program_messages, without_404 at 2. cbn [a_status_404_file_path]. rewrite app_nil_r.
    unfold target_messages. cbv zeta. rewrite (main_404 page a Hp), configure_snoc. reflexivity. }
  assert (P : program_messages pe fails page a rq w = others ++ if rs_status r =? 404 then file_messages pe fails (w_os w) path false else []).
  { unfold program_messages. rewrite T, E. cbn [snd]. fold path. destruct path; [easy|reflexivity]. }
  rewrite P. split; [intros N; replace (rs_status r =? 404) with false by lia; now rewrite app_nil_r|].
  intros ->. cbn [Z.eqb Pos.eqb]. unfold file_messages, is_readable, get_response_messages, read_file_messages, read_file.
  assert (C : resolve (w_os w) path = walk (os_fs (w_os w)) (os_links (w_os w)) (if absolute path then [] else os_cwd (w_os w)) (elements path))
    by (unfold resolve; rewrite c_str_id by exact Hz; now destruct path).
  split.
  - intros l b Hl Hb. apply walk_resolves in Hl. rewrite <- C in Hl. rewrite Hl, Hb.
    destruct (fails path); eexists; (split; [|reflexivity]); discriminate.
  - intros N. destruct (resolve (w_os w) path) as [l|e]; [|apply app_nil_r].
    destruct (os_fs (w_os w) l) as [[[] [] b|?|?|]|] eqn:El; try apply app_nil_r.
    exfalso. apply (N l b); [now apply walk_resolves|exact El].
Qed.
Print Assumptions C109_page.
Definition bad_page_os : os := let o := w_os a_world in
  OS (fun l => match os_fs o l with Some (EFile r _ b) => Some (EFile r false b) | x => x end) (os_cwd o) (os_links o).
Example C109_page_case :
  let w := World bad_page_os (w_stats a_world) (w_clock a_world) (w_readings a_world) true in
  (exists w' r, main_app plain_page some_args (ask "GET" "/x") w = (w', Answers r) /\ rs_status r = 404) /\
  program_messages (fun _ _ => str "error") (fun _ => NotRead) plain_page some_args (ask "GET" "/x") w =
    [err (str "Failed to read file: /srv/www/a.txt"); err (str "failed to read file: /srv/www/a.txt")] /\
  program_messages (fun _ _ => str "error") (fun _ => NotRead) plain_page some_args (ask "GET" "/x") a_world = [].
Proof. cbv zeta. split; [eexists _, _; split; reflexivity|]. vm_compute. auto. Qed.

(** ** C110.  At level info the console tells, in order, of the preface and of every response
    that is entered in the access log, with its status and size. *)
Theorem C110_agrees_with_log : forall W app cs T app_says thrown unhandled others t0 (w0 : W) A r c tr w ms,
  (forall rq w m, In m (app_says rq w) -> m_level m <> LInfo) ->
  (forall rq w w' r, app rq w = (w', Answers r) -> 0 <= rs_status r) ->
  narrated W app cs T app_says thrown unhandled others t0 w0 A r c tr w ms -> tells tr (infos ms).
Proof.
  intros W app cs T says thrown unh others t0 w0 A r c tr w ms H1 H2 H.
  refine (narrated_tells W app cs T says thrown unh _ H2 _ _ _ _ _ _ _ _ _ H).
  intros rq w1. specialize (H1 rq w1). unfold infos. induction (says rq w1) as [|m l IH]; [reflexivity|]. cbn [filter].
  pose proof (H1 m (or_introl eq_refl)) as Hm. destruct (m_level m); try congruence; apply IH; intros; apply H1; now right.
Qed.
Print Assumptions C110_agrees_with_log.

Example C110_agrees_with_log_case : forall T cs, exists c tr w ms,
  narrated unit hi cs T no_words oops boom eq 0 tt any (Some WantRead) c tr w ms /\
  received tr = w_hello ++ w_get ++ w_get /\
  infos ms = [info (str "valid HTTP/2 preface received");
              info (str "200 status code sent w/headers"); info (str "sending response body (length: 2)");
              info (str "200 status code sent w/headers"); info (str "sending response body (length: 2)")] /\
  logged tr = [(rq_headers get_root, 200, 2); (rq_headers get_root, 200, 2)].
Proof.
  intros T cs. apply (by_narrate hi cs T no_words oops boom eq 0 tt any [deliver [octets (w_hello ++ w_get ++ w_get)]]); [scripts_ok|apply Forall_any|].
  destruct cs; vm_compute; repeat split.
Qed.

(** The messages of the shipped program's handlers are warnings and errors. *)
Theorem C110_program_says : forall path_error fails page a rq w m,
  In m (program_messages path_error fails page a rq w) -> m_level m = LWarn \/ m_level m = LErr \/ m_level m = LCritical.
Proof. intros pe fails page a rq w m. pose proof (complaints_program pe fails page a rq w) as H. unfold complaints in H. rewrite Forall_forall in H. apply H. Qed.
Print Assumptions C110_program_says.

Example C110_program_says_case :
  program_messages (fun _ _ => str "error") (fun _ => NotOpened) plain_page some_args (ask "GET" "/static/../x") a_world =
  [warn (str "Directory traversal attempt blocked: ../x (base: /srv/www)"); warn (str "invalid file path requested: /static/../x")].
Proof. vm_compute. reflexivity. Qed.

(** The words "status code sent" are not true: they are there before anything is sent, also
    if the client has closed the connection and no octet ever can be. *)
Definition refused_write (o : bytes) (e : event) : Prop :=
  match e with EvWrite _ offered taken (Error ConnectionClosed) => offered = o /\ taken = [] | _ => False end.
Theorem C110_sent_refuted : forall T cs, exists c tr w ms,
  narrated unit hi cs T no_words oops boom eq 0 tt any (Some WantWrite) c tr w ms /\
  In (info (str "200 status code sent w/headers")) ms /\ delivered tr = [] /\
  Exists (refused_write (queued tr)) tr.
Proof.
  intros T cs. apply (by_narrate hi cs T no_words oops boom eq 0 tt any [Scripts [(0, HsOk)] [octets (rfc_preface ++ w_get)] [(0, WrErr ConnectionClosed)]]); [scripts_ok|apply Forall_any|].
  destruct cs; vm_compute; (split; [reflexivity|]); (split; [auto 10|]); (split; [reflexivity|]);
    repeat first [apply Exists_cons_hd; split; reflexivity|apply Exists_cons_tl].
Qed.
Print Assumptions C110_sent_refuted.
