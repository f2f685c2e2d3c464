(** C79-C81: the shipped program, from the octets of its clients to the octets they get. *)
From Verif Require Import Base BaseLemmas SpecFrames FramesProofs SpecTable SpecHpack SpecHpackEnc SpecInt IntProofs HpackLemmas DynTable HpackEnc HpackEncProofs SpecHpackKept HpackEncOnce Huffman HuffmanProofs Http Conn SpecConn ConnLemmas ConnBasic ConnTerm ConnSpec
  ConnMain ConnMore ConnWit FileSys Files SpecFiles FilesProofs FilesServe PropFiles Router App SpecApp AppProofs PropApp
  Poller Server SpecServer ServerProofs ServerReach ServerHistory PropServer PropServer2 ProgramExt SpecProgram ProgramProofs.

(** ** C79.  The statistics of the program count the requests of all connections. *)
Definition status_is (code : Z) (x : request * option response) : bool :=
  match snd x with Some r => rs_status r =? code | None => false end.
Theorem C79_statistics : forall linux listener page a cs T k0 w0 ok A pending s,
  setting listener k0 -> reached linux listener world (main_app page a) cs T k0 w0 ok A pending s ->
  a_status_page a = true -> w_stats w0 = no_stats ->
  exists h, chronicle world (main_app page a) w0 s h /\
    (lenZ (requests (map snd h)) < 2 ^ 64 ->
     total_requests (w_stats (sv_world world s)) = lenZ (requests (map snd h)) /\
     sum (status_codes (w_stats (sv_world world s))) = lenZ (requests (map snd h)) /\
     forall code, lookup code (status_codes (w_stats (sv_world world s))) = lenZ (filter (status_is code) (requests (map snd h)))).
Proof.
  intros linux listener page a cs T k0 w0 ok A pending s Hs H Ha Hw.
  destruct (C78_one_sequence _ _ _ _ _ _ _ _ _ _ _ _ Hs H) as [h Hh]. exists h. split; [exact Hh|]. intros Hl.
  assert (G : exists l, served_history (main_registrations page a) l (sv_world world s) /\
    map (fun x => option_map Answers (snd x)) (requests (map snd h)) = map Some l).
  { destruct Hh as [_ _ Hh]. clear Hl. induction Hh as [|l w w' _ IH E|l w rq w' r _ (l' & I1 & I2) E|l w rq w' _ _ E|l w rq w' _ _ E].
    - exists []. split; [now apply history_start|reflexivity].
    - subst w'. exact IH.
    - exists (l' ++ [Answers r]). split; [exact (history_request _ _ _ _ _ _ I1 E)|]. now rewrite !map_app, I2.
    - exfalso. destruct (main_answers page a rq w) as (w2 & r2 & E'). congruence.
    - exfalso. destruct (main_answers page a rq w) as (w2 & r2 & E'). congruence. }
  destruct G as (l & Hl' & El). assert (Hn : lenZ (requests (map snd h)) = lenZ l).
  { apply (f_equal (@length _)) in El. rewrite !map_length in El. unfold lenZ. now rewrite El. }
  destruct (C64_program page a l _ Ha Hl') as (K1 & K2 & K3); [lia|]. rewrite Hn. split; [exact K1|]. split; [exact K2|].
  intros code. rewrite K3. unfold how_many. clear -El. revert l El.
  induction (requests (map snd h)) as [|[rq an] q IH]; intros [|x l] El; try discriminate El; [reflexivity|].
  cbn [map] in El. injection El as E1 E2. specialize (IH l E2). cbn [filter]. destruct an as [r|]; [|discriminate E1]. cbn in E1. injection E1 as <-.
  cbn [answered_with status_is snd]. destruct (rs_status r =? code); [rewrite !lenZ_cons; lia|exact IH].
Qed.
Print Assumptions C79_statistics.

(** ** C80.  Every request on every connection is answered, and the answer is that of
    SpecProgram.v. *)
Theorem C80_answers : forall linux listener page a cs T k0 w0 ok A pending s e rq an,
  setting listener k0 -> reached linux listener world (main_app page a) cs T k0 w0 ok A pending s ->
  args_ok a (w_os w0) -> anyone world s e -> In (rq, an) (requests (e_trace e)) ->
  exists r, an = Some r /\ program_answer page a (w_os w0) (w_no_new_privs w0) (rq_path rq) (rq_method rq) r.
Proof.
  intros linux listener page a cs T k0 w0 ok A pending s e rq an Hs H Ha He Hin.
  destruct (C78_one_sequence _ _ _ _ _ _ _ _ _ _ _ _ Hs H) as [h [H1 _ H3]].
  destruct (main_handled page a _ _ Ha w0 _ _ (conj eq_refl eq_refl) H3) as [K _].
  rewrite (H1 e He) in Hin. assert (G : In (rq, an) (requests (map snd h))).
  { clear -Hin. unfold of_socket in Hin. unfold requests in *. rewrite in_flat_map in *. destruct Hin as (ev & H1 & H2). exists ev. split; [|exact H2].
    apply in_map_iff in H1 as (x & <- & Hx). apply in_map. now apply filter_In in Hx. }
  rewrite Forall_forall in K. destruct (K _ G) as (r & E & P). cbn [fst snd] in *. now exists r.
Qed.
Print Assumptions C80_answers.

(** SpecProgram.v leaves no choice: apart from the status page, which shows statistics, there
    is one answer to a request.  (With [C80_answers]: two clients asking the same get the
    same, and the answer to a request for a published file is what [file_answer] says.) *)
Theorem C80_determined : forall page a o nnp p m r r', args_ok a o ->
  ~ (a_status_page a = true /\ m = GET /\ p = str "/_ion/status") ->
  program_answer page a o nnp p m r -> program_answer page a o nnp p m r' -> r = r'.
Proof. exact program_unique. Qed.
Print Assumptions C80_determined.

(** The static file handler answers exactly what [file_answer] says. *)
Theorem C80_files_exact : forall o url root p head r, real_place (os_fs o) (os_cwd o) -> ~ In 0 root ->
  (exists rest, p = url ++ rest) ->
  static_handle o (Static url root) p head = Ret r <-> file_answer o url root p head r.
Proof.
  intros o url root p head r Hc Hz [rest ->]. pose proof (starts_with_app url rest) as Hm.
  split; [now apply file_answered|now apply file_sound].
Qed.
Print Assumptions C80_files_exact.

(** ** C81.  The octets exchanged on any connection of the program. *)
Definition served_by (page : stats -> Z -> bytes) (a : args) (o : os) (nnp : bool) (tx : transaction) : Prop :=
  forall rq an, In (rq, an) (tx_app tx) -> exists r, an = Some r /\ program_answer page a o nnp (rq_path rq) (rq_method rq) r.
Lemma program_life linux listener page a cs T k0 w0 ok A pending s e :
  setting listener k0 -> reached linux listener world (main_app page a) cs T k0 w0 ok A pending s ->
  args_ok a (w_os w0) -> anyone world s e ->
  exists w, session world (fixed_app page a (w_os w0) (w_no_new_privs w0)) cs T (fun _ _ => True) (e_born e) w0 (fun _ => True)
    (e_result e) (e_conn e) (e_trace e) w.
Proof.
  intros Hs H Ha He. apply (C50_own_life linux listener world _ cs T k0 w0 ok A pending s e Hs); [|exact He].
  apply (reached_ext world (main_app page a) _ cs T (kept (w_os w0) (w_no_new_privs w0))).
  - intros rq w. now apply main_keeps.
  - intros rq w. apply fixed_agree. exact Ha.
  - exact Hs.
  - split; reflexivity.
  - exact H.
Qed.
(** The transactions of a connection of the program. *)
Lemma program_served page a w0 tr ins txs outs byes escaped rest : args_ok a (w_os w0) -> files_fit page (w_os w0) ->
  conversation (fun _ _ => True) (fixed_app page a (w_os w0) (w_no_new_privs w0)) w0 tr ins txs outs byes escaped rest ->
  escaped = [] \/ (exists rq, escaped = [(rq, None)]) ->
  escaped = [] /\ Forall (served_by page a (w_os w0) (w_no_new_privs w0)) txs /\
  Forall (fun tx => Forall program_field (rs_headers (tx_sent tx)) /\ (length (rs_headers (tx_sent tx)) <= 6)%nat) txs /\
  frames_octets (server_settings :: outs ++ byes) (queued tr).
Proof.
  intros Ha Hf [C1 C2 C3 C4 C5 C6 C7 C8 C9 CS CL C10 [w' C11]] Hx.
  pose proof (fixed_handled page a _ _ Ha _ _ _ _ C11) as Hp. rewrite C5 in Hp. apply Forall_app in Hp as [Hp Hpx].
  assert (Ex : escaped = []).
  { destruct Hx as [Hx|[rq ->]]; [exact Hx|]. apply Forall_cons_iff in Hpx as [(r & E & _) _]. discriminate E. }
  assert (Hd : Forall (served_by page a (w_os w0) (w_no_new_privs w0)) txs).
  { apply Forall_forall. intros tx Htx rq an Hin. rewrite Forall_forall in Hp.
    destruct (Hp (rq, an)) as (r & E & P); [|exists r; split; [exact E|exact P]]. apply in_concat. exists (tx_app tx). split; [apply in_map; exact Htx|exact Hin]. }
  assert (Hsent : Forall (fun tx => Forall program_field (rs_headers (tx_sent tx)) /\ (length (rs_headers (tx_sent tx)) <= 6)%nat) txs).
  { pose proof (proj1 (answered_served _ _ _ C3)) as Hsv. rewrite Forall_forall in *. intros tx Htx.
    specialize (Hsv tx Htx). specialize (Hd tx Htx). unfold served_by in Hd. destruct Hsv as [Hn|m p r fields _ _ Hr]; cbn [rs_headers].
    - split; [constructor|cbn; lia].
    - destruct (Hd _ _ (or_introl eq_refl)) as (r' & [= <-] & P). apply sent_fields with r; [|exact Hr]. exact (answer_shape _ _ _ _ _ _ _ Hf P). }
  split; [exact Ex|]. split; [exact Hd|]. split; [exact Hsent|].
  apply C4. rewrite Forall_forall in *. intros tx Htx. specialize (C10 tx Htx). destruct (Hsent tx Htx) as [S1 S2]. apply fields_bound in S1. lia.
Qed.
Theorem C81_octets_partial : forall linux listener page a cs T k0 w0 ok A pending s e,
  huffman_tree = Ret T -> setting listener k0 -> reached linux listener world (main_app page a) cs T k0 w0 ok A pending s ->
  args_ok a (w_os w0) -> files_fit page (w_os w0) -> anyone world s e ->
  silent (e_result e) (e_trace e) \/
  exists ins txs outs byes rest,
    (exists o, frames_octets ins o /\ received (e_trace e) = rfc_preface ++ o ++ rest) /\
    answered ins txs outs /\ Forall (served_by page a (w_os w0) (w_no_new_privs w0)) txs /\
    requests (e_trace e) = concat (map tx_app txs) /\
    (exists st, rfc_blocks server_profile ([], 65536) (map tx_block txs) (map tx_fields txs) st) /\
    (byes = [] \/ exists g, byes = [g] /\ goaway_frame g) /\
    frames_octets (server_settings :: outs ++ byes) (queued (e_trace e)) /\
    forall L, (length L <= 39)%nat ->
      (forall tx n, In tx txs -> In (Hdr (str "content-length") n) (rs_headers (tx_sent tx)) -> In n L) ->
      exists st, rfc_blocks (rfc_profile 4096) ([], 4096) (map tx_sent_block txs) (map (fun tx => rs_headers (tx_sent tx)) txs) st.
Proof.
  intros linux listener page a cs T k0 w0 ok A pending s e HT Hs H Ha Hf He.
  destruct (program_life linux listener page a cs T k0 w0 ok A pending s e Hs H Ha He) as [w HS].
  destruct (session_conversation world _ cs T (fun _ _ => True) (e_born e) w0 (is_tree_intro T HT) (fixed_ok page a _ _ Ha cs Hf) _ _ _ _ _ HS)
    as [K|(ins & txs & outs & byes & escaped & rest & HC & Hb & Hx & _)]; [now left|right].
  destruct (program_served page a w0 _ _ _ _ _ _ _ Ha Hf HC Hx) as (-> & Hd & Hsent & Hfr).
  destruct HC as [C1 C2 C3 C4 C5 C6 C7 C8 C9 CS CL C10 [w' C11]]. rewrite app_nil_r in C5.
  exists ins, txs, outs, byes, rest. split; [exact C1|]. split; [exact C3|]. split; [exact Hd|]. split; [exact C5|]. split; [exact C7|]. split; [exact Hb|].
  split; [exact Hfr|].
  intros L HL Hin.
  set (L' := filter (fun n => lenZ n <=? 20) L).
  destruct (with_lengths_fit L') as (D1 & D2 & D3 & D4).
  - subst L'. clear -HL. apply Nat.le_trans with (length L); [|exact HL]. clear. induction L as [|n L IH]; [apply le_n|]. cbn [filter]. destruct (lenZ n <=? 20); cbn [length]; lia.
  - apply Forall_forall. intros n Hn. apply filter_In in Hn as [_ Hn]. lia.
  - apply (C9 (with_lengths L')); auto. apply Forall_forall. intros tx Htx f Hfd. rewrite Forall_forall in Hsent. destruct (Hsent tx Htx) as [S1 _].
    rewrite Forall_forall in S1. destruct (S1 f Hfd) as [K|(n & (x & Hn & Hlt) & ->)]; apply in_or_app; [now left|right].
    apply in_map. apply nodup_In. apply filter_In. split; [exact (Hin tx n Htx Hfd)|]. pose proof (decimal_digits n x Hn). lia.
Qed.
Print Assumptions C81_octets_partial.

(** Which clients can read the response fields, exactly: those for which every field that is
    sent again is at hand (SpecHpackKept.v), whatever the size [m] of their table. *)
Lemma program_one_value hs : Forall program_field hs -> forall x y, In x hs -> In y hs -> h_name x = h_name y -> ~ static_name (h_name x) -> x = y.
Proof.
  intros H x y Hx Hy E N. rewrite Forall_forall in H.
  assert (S : static_name (str "content-length")) by (exists (Hdr (str "content-length") []); split; [|reflexivity]; unfold rfc_static; cbn; tauto).
  destruct (H x Hx) as [Fx|(n & _ & ->)]; [|now destruct N]. destruct (H y Hy) as [Fy|(n & _ & ->)]; [|rewrite E in N; now destruct N]. now apply fixed_one_value.
Qed.
Theorem C81_exactly : forall linux listener page a cs T k0 w0 ok A pending s e,
  huffman_tree = Ret T -> setting listener k0 -> reached linux listener world (main_app page a) cs T k0 w0 ok A pending s ->
  args_ok a (w_os w0) -> files_fit page (w_os w0) -> anyone world s e ->
  silent (e_result e) (e_trace e) \/
  exists ins txs outs byes rest,
    (exists o, frames_octets ins o /\ received (e_trace e) = rfc_preface ++ o ++ rest) /\
    answered ins txs outs /\ frames_octets (server_settings :: outs ++ byes) (queued (e_trace e)) /\
    forall m limit, m <= 65536 ->
      (exists st, rfc_blocks (rfc_profile limit) ([], m) (map tx_sent_block txs) (map (fun tx => rs_headers (tx_sent tx)) txs) st) <->
      all_at_hand m 65536 (concat (map (fun tx => rs_headers (tx_sent tx)) txs)).
Proof.
  intros linux listener page a cs T k0 w0 ok A pending s e HT Hs H Ha Hf He.
  destruct (program_life linux listener page a cs T k0 w0 ok A pending s e Hs H Ha He) as [w HS].
  destruct (session_conversation world _ cs T (fun _ _ => True) (e_born e) w0 (is_tree_intro T HT) (fixed_ok page a _ _ Ha cs Hf) _ _ _ _ _ HS)
    as [K|(ins & txs & outs & byes & escaped & rest & HC & Hb & Hx & _)]; [now left|right]. clear HT H HS.
  destruct (program_served page a w0 _ _ _ _ _ _ _ Ha Hf HC Hx) as (-> & Hd & Hsent & Hfr).
  exists ins, txs, outs, byes, rest. split; [exact (conv_received _ _ _ _ _ _ _ _ _ _ HC)|]. split; [exact (conv_answered _ _ _ _ _ _ _ _ _ _ HC)|]. split; [exact Hfr|].
  intros m limit Hm. apply (read_exactly (concat (map (fun tx => rs_headers (tx_sent tx)) txs))).
  - refine (program_one_value _ _). apply Forall_concat, Forall_map. eapply Forall_impl; [|exact Hsent]. intros tx [S _]. exact S.
  - apply incl_refl.
  - intros R. destruct (conv_smaller _ _ _ _ _ _ _ _ _ _ HC m Hm R) as [K1 K2]. split; [intros K; exact (K1 K limit)|intros K; exact (K2 K limit)].
  - intros dn before h after later E R Lo hss' st HR. exact (conv_lost _ _ _ _ _ _ _ _ _ _ HC dn before h after later E R Lo m limit hss' st Hm HR).
Qed.
Print Assumptions C81_exactly.

(** In particular a file that is there is sent, whatever the other clients do: [io] says
    whether reading it succeeds. *)
Theorem C80_file : forall linux listener page a cs T k0 w0 ok A pending s e rq an url root l0 rel (d : location) (name : bytes) io b t,
  setting listener k0 -> reached linux listener world (main_app page a) cs T k0 w0 ok A pending s ->
  args_ok a (w_os w0) -> anyone world s e -> In (rq, an) (requests (e_trace e)) ->
  ~ own_route a (w_no_new_privs w0) (rq_path rq) (rq_method rq) -> published a url root (rq_path rq) (rq_method rq) ->
  root_at (w_os w0) root l0 -> asks url (rq_path rq) rel ->
  leads_to (w_os w0) l0 rel (d ++ [name]) -> below l0 (d ++ [name]) ->
  os_fs (w_os w0) (d ++ [name]) = Some (EFile true io b) -> type_of_name name t ->
  exists r, an = Some r /\ file_content (bytes_eqb (rq_method rq) HEAD) io t b r.
Proof.
  intros linux listener page a cs T k0 w0 ok A pending s e rq an url root l0 rel d name io b t Hs H Ha He Hin Hn Hp Hr Has Hl Hb Hf Ht.
  destruct (C80_answers _ _ _ _ _ _ _ _ _ _ _ _ _ _ _ Hs H Ha He Hin) as (r & E & K). exists r. split; [exact E|].
  exact (program_file page a _ _ _ _ url root l0 rel d name io b t r Ha Hn Hp Hr Has Hl Hb Hf Ht K).
Qed.
Print Assumptions C80_file.

(** ** Cases.  Two clients; one asks for a file and for something that is not there, the
    other for the status page. *)
Definition short_page (_ : stats) (_ : Z) : bytes := str "fine".
Definition get (stream : Z) (p : bytes) : bytes := [0; 0; 3 + lenZ p; 1; 5; 0; 0; 0; stream; 130; 4; lenZ p] ++ p.
Definition visits : list iteration :=
  [at_time 0 [arrives 4]; at_time 0 [arrives 5];
   at_time 0 [sends 5 (w_hello ++ get 1 (str "/static/a.txt")); sends 4 (w_hello ++ get 1 (str "/_ion/status"))];
   at_time 0 [sends 5 (get 3 (str "/nothing")); (4, (16, quiet AcceptAgain nothing))]].
Lemma some_args_ok : args_ok some_args an_os.
Proof.
  split; [exact an_os_cwd|]. split; [no_zero|]. intros url root [= <- <-]. no_zero.
Qed.
Lemma short_fit : files_fit short_page an_os.
Proof.
  split; [reflexivity|]. intros l r io b. unfold an_os, a_disk, disk. cbn [os_fs]. destruct (find _ _) as [x|] eqn:E; [|discriminate].
  apply find_some in E as [E _]. intros [= E']. cbn [In] in E.
  repeat (destruct E as [<-|E]; [cbn [snd] in E'; first [discriminate E'|injection E' as _ _ <-; reflexivity]|]). destruct E.
Qed.
Example C79_case : forall linux T, exists s,
  reached linux 3 world (main_app short_page some_args) true T k_std a_world true enough_resources [] s /\
  w_stats (sv_world world s) = Stats 3 [(200, 2); (404, 1)] 4 /\
  map (fun x => map (fun x => (rq_path (fst x), option_map rs_status (snd x))) (requests (e_trace (snd x)))) (sv_conns world s) =
    [[(str "/static/a.txt", Some 200); (str "/nothing", Some 404)]] /\
  map (fun x => map (fun x => (rq_path (fst x), option_map rs_status (snd x))) (requests (e_trace x))) (sv_gone world s) = [[(str "/_ion/status", Some 200)]].
Proof. intros [] T; run visits. Qed.
Example C80_case : forall linux T, exists s e,
  reached linux 3 world (main_app short_page some_args) true T k_std a_world true enough_resources [] s /\
  args_ok some_args (w_os a_world) /\ files_fit short_page (w_os a_world) /\ conn_at world s 5 e /\
  requests (e_trace e) =
    [(Request (str "GET") (str "/static/a.txt") [Hdr (str ":method") (str "GET"); Hdr (str ":path") (str "/static/a.txt")],
      Some (Response 200 [Hdr (str "content-type") (str "text/plain; charset=utf-8")] (str "text")));
     (Request (str "GET") (str "/nothing") [Hdr (str ":method") (str "GET"); Hdr (str ":path") (str "/nothing")],
      Some (Response 404 [Hdr (str "content-type") (str "text/plain; charset=utf-8")] (str "text")))] /\
  ~ own_route some_args true (str "/static/a.txt") (str "GET") /\ published some_args (str "/static") (str "/srv/www") (str "/static/a.txt") (str "GET") /\
  root_at an_os (str "/srv/www") www_at /\ asks (str "/static") (str "/static/a.txt") (str "a.txt") /\
  leads_to an_os www_at (str "a.txt") (www_at ++ [str "a.txt"]) /\ below www_at (www_at ++ [str "a.txt"]) /\
  os_fs an_os (www_at ++ [str "a.txt"]) = Some (EFile true true (str "text")) /\
  type_of_name (str "a.txt") (str "text/plain; charset=utf-8").
Proof.
  intros linux T.
  destruct (by_reached (linux := linux) (app := main_app short_page some_args) (cs := true) (T := T) (w0 := a_world) visits
    (fun s => match mget 5 (sv_conns world s) with Some e => requests (e_trace e) =
    [(Request (str "GET") (str "/static/a.txt") [Hdr (str ":method") (str "GET"); Hdr (str ":path") (str "/static/a.txt")],
      Some (Response 200 [Hdr (str "content-type") (str "text/plain; charset=utf-8")] (str "text")));
     (Request (str "GET") (str "/nothing") [Hdr (str ":method") (str "GET"); Hdr (str ":path") (str "/nothing")],
      Some (Response 404 [Hdr (str "content-type") (str "text/plain; charset=utf-8")] (str "text")))] | None => False end)) as (s & H & K).
  - destruct linux; vm_compute; reflexivity.
  - apply iterations_ok. vm_compute. reflexivity.
  - destruct (mget 5 (sv_conns world s)) as [e|] eqn:E; [|destruct K]. exists s, e. split; [exact H|]. split; [exact some_args_ok|]. split; [exact short_fit|].
    split; [exact E|]. split; [exact K|]. split; [intros [_ [[_ X]|[X _]]]; discriminate X|]. split; [split; [reflexivity|split; [now left|now exists (str "/a.txt")]]|].
    split; [exact www_root|]. split; [apply (asks_plain (str "/static") (str "a.txt")); [discriminate|no_zero]|]. split; [found|].
    split; [now exists [str "a.txt"]|]. split; [reflexivity|]. apply (type_known _ (str "a") (str "txt")); [reflexivity|no_zero|]. cbn. auto 20.
Qed.
(** "none/../link/passwd": "none" is missing, so the rest is text and stands for
    /srv/www/link/passwd; "link" leads out.  The answer is the file. *)
Example C80_text_case : args_ok some_args an_os /\ textual an_os www_at (str "none/../link/passwd") (www_at ++ [str "link"; str "passwd"]) /\
  program_answer short_page some_args an_os true (str "/static/none/../link/passwd") (str "GET")
    (Response 200 [Hdr (str "content-type") (str "application/octet-stream")] (str "root")).
Proof.
  split; [exact some_args_ok|].
  assert (K : textual an_os www_at (str "none/../link/passwd") (www_at ++ [str "link"; str "passwd"])).
  { apply (textual_path _ _ _ _ [] (str "none") [dotdot; str "link"; str "passwd"] www_at); [reflexivity|constructor|apply resolves_done| |reflexivity].
    apply no_such_name; [reflexivity|easy..|reflexivity]. }
  split; [exact K|]. apply program_same; [|right; discriminate]. apply (first_file _ _ _ _ _ _ (str "/static") (str "/srv/www")).
  - intros [_ [[_ X]|[X _]]]; discriminate X.
  - split; [reflexivity|]. split; [now left|]. now exists (str "/none/../link/passwd").
  - apply (file_text_found _ _ _ _ _ www_at (str "none/../link/passwd") (www_at ++ [str "link"]) (str "passwd") (loc ["etc"; "passwd"]%string) true (str "root")
      (str "application/octet-stream")); [exact www_root|apply (asks_plain (str "/static") (str "none/../link/passwd")); [discriminate|no_zero]|exact K| | |reflexivity| |reflexivity].
    + now exists [str "link"; str "passwd"].
    + apply walk_resolves. reflexivity.
    + apply type_unknown. intros x e t E He. exfalso. assert (X : In DOT (str "passwd")) by (rewrite E; apply in_or_app; right; now left). revert X. no_zero.
Qed.

(** The run of [C80_case], as octets. *)
Definition visit_octets : bytes :=
    [0; 0; 18; 4; 0; 0; 0; 0; 0; 0; 3; 0; 0; 0; 100; 0; 4; 0; 0; 255; 255; 0; 5; 0; 0; 64; 0; 0; 0; 0; 4; 1; 0; 0; 0; 0;
     0; 0; 44; 1; 4; 0; 0; 0; 1; 136; 95; 146; 73; 124; 165; 138; 232; 25; 170; 251; 80; 147; 142; 196; 21; 48; 90; 153; 86; 123; 92; 1; 52; 118; 3; 105; 111; 110;
     64; 137; 242; 181; 103; 240; 91; 11; 34; 209; 250; 3; 105; 111; 110; 0; 0; 4; 0; 1; 0; 0; 0; 1; 116; 101; 120; 116;
     0; 0; 5; 1; 4; 0; 0; 0; 3; 141; 193; 192; 191; 190; 0; 0; 4; 0; 1; 0; 0; 0; 3; 116; 101; 120; 116].
Example C81_case : forall linux, exists s e, huffman_tree = Ret the_tree /\
  reached linux 3 world (main_app short_page some_args) true the_tree k_std a_world true enough_resources [] s /\
  args_ok some_args (w_os a_world) /\ files_fit short_page (w_os a_world) /\ conn_at world s 5 e /\
  lenZ (requests (e_trace e)) = 2 /\ queued (e_trace e) = visit_octets.
Proof.
  intros linux.
  destruct (by_reached (linux := linux) (app := main_app short_page some_args) (cs := true) (T := the_tree) (w0 := a_world) visits
    (fun s => match mget 5 (sv_conns world s) with Some e => lenZ (requests (e_trace e)) = 2 /\ queued (e_trace e) = visit_octets | None => False end)) as (s & H & K).
  - destruct linux; vm_compute; split; reflexivity.
  - apply iterations_ok. vm_compute. reflexivity.
  - destruct (mget 5 (sv_conns world s)) as [e|] eqn:E; [|destruct K]. exists s, e. split; [exact huffman_tree_eq|]. split; [exact H|].
    split; [exact some_args_ok|]. split; [exact short_fit|]. split; [exact E|exact K].
Qed.

(** ** The limit of 39 lengths is there for a reason: after the download of 64 files of
    different sizes no client can read the header fields any more. *)
Definition numbers : list Z := map Z.of_nat (seq 1 64).
Definition many_files : os := OS (disk ([([], EDir true); ([str "d"], EDir true)] ++
  map (fun n => ([str "d"; [150 + n]], EFile true true (repeat 120 (Z.to_nat n)))) numbers)) [] 40.
Definition many_args : args := Args true [] [] [str "/d"; str "/d"] [] false false.
Definition many_world : world := World many_files no_stats (fun _ => 0) 0 true.
Definition downloads : list iteration :=
  [at_time 0 [arrives 4]; at_time 0 [sends 4 w_hello]] ++
  map (fun n => at_time 0 [sends 4 (get (2 * n - 1) (str "/d/" ++ [150 + n]))]) numbers.
Definition many_type : header := Hdr (str "content-type") (str "application/octet-stream").
Definition many_fields_of (n : Z) : list header :=
  [Hdr (str ":status") (str "200"); many_type; Hdr (str "content-length") (to_string n); Hdr (str "server") (str "ion"); Hdr (str "x-powered-by") (str "ion")].
(** What the server answers: the blocks are those of the encoder. *)
Definition blocks_of {A} (x : out (list bytes * A)) : list bytes := match x with Ret (bs, _) => bs | _ => [] end.
Definition many_blocks : list bytes := blocks_of (encode_seq true (dt_init DEFAULT_MAX_TABLE_SIZE) (map many_fields_of numbers)).
Definition many_frames : list wframe :=
  server_settings :: WFrame 4 1 0 [] ::
  flat_map (fun x => [WFrame 1 4 (2 * fst x - 1) (snd x); WFrame 0 1 (2 * fst x - 1) (repeat 120 (Z.to_nat (fst x)))]) (combine numbers many_blocks).
(** Octets of a small frame. *)
Definition small_octets (f : wframe) : bytes := [0; 0; lenZ (w_payload f); w_type f; w_flags f; 0; 0; 0; w_stream f] ++ w_payload f.
Definition small_frame (f : wframe) : bool :=
  (lenZ (w_payload f) <? 256) && (0 <=? w_type f) && (w_type f <? 256) && (0 <=? w_flags f) && (w_flags f <? 256) && (0 <=? w_stream f) && (w_stream f <? 256).
Lemma small_octets_ok f : small_frame f = true -> frame_octets f (small_octets f).
Proof.
  unfold small_frame. intros H. apply andb_prop in H as [H H7]. apply andb_prop in H as [H H6]. apply andb_prop in H as [H H5]. apply andb_prop in H as [H H4].
  apply andb_prop in H as [H H3]. apply andb_prop in H as [H1 H2].
  assert (0 <= lenZ (w_payload f)) by (unfold lenZ; lia).
  exists [0; 0; lenZ (w_payload f); w_type f; w_flags f; 0; 0; 0; w_stream f]. split; [reflexivity|].
  exists [0; 0; lenZ (w_payload f)], [0; 0; 0; w_stream f], 0. split; [reflexivity|]. split.
  - unfold all_bytes, is_byte. repeat (apply Forall_cons; [lia|]). apply Forall_nil.
  - split; [reflexivity|]. split; [rewrite be3; lia|]. split; [reflexivity|]. split; [now left|]. split; [rewrite be4; lia|lia].
Qed.
Lemma small_frames_ok fs : forallb small_frame fs = true -> frames_octets fs (flat_map small_octets fs).
Proof.
  intros H. rewrite forallb_forall in H. exists (map small_octets fs). split; [|now rewrite flat_map_concat_map].
  induction fs as [|f fs IH]; cbn [map]; constructor; [apply small_octets_ok, H; now left|]. apply IH. intros g Hg. apply H. now right.
Qed.
(** An index that takes more than one octet and is absent. *)
Lemma wide_index_stuck P dyn m ib i rest : rfc_int 7 (255 :: ib) i -> table_entry dyn i = None -> stuck P (dyn, m) ((255 :: ib) ++ rest).
Proof.
  intros Hi Hn. split; [easy|]. intros used rest' hs st' E H.
  inversion H as [d mx f rr i0 h Hf' [Hi' _] Hte|d mx f rr n vb v Hf' Hn' Hv
                  |d mx f rr n vb v Hf' Hn' Hv|d mx f rr n Hf' Hi' Hl']; subst;
    assert (f = 255) by (cbn in E; now injection E); subst f; try lia.
  destruct (rfc_int_prefix_free _ _ _ Hi _ _ _ _ Hi' E) as (_ & _ & ->). congruence.
Qed.
Lemma status_read limit st : rfc_block (rfc_profile limit) st [136] [Hdr (str ":status") (str "200")] st.
Proof.
  destruct st as [dyn m]. apply block_one. apply repr_indexed with 8; [lia| |reflexivity]. split; [|exact I].
  change 8 with (136 mod 2 ^ 7). constructor; [now split|reflexivity].
Qed.
Lemma index_219 : rfc_int 7 [255; 92] 219.
Proof. change 219 with (2 ^ 7 - 1 + 92). constructor; [now split|reflexivity|]. constructor. lia. Qed.
Lemma many_lost limit m : m = 4096 \/ m = 65536 -> forall hss st, ~ rfc_blocks (rfc_profile limit) ([], m) many_blocks hss st.
Proof.
  intros Hm.
  assert (E : exists bs t, encode_seq true (dt_init DEFAULT_MAX_TABLE_SIZE) (map many_fields_of (firstn 63 numbers)) = Ret (bs, t) /\
    many_blocks = bs ++ [[136] ++ ([255; 92] ++ [2; 54; 52; 254; 253])]).
  { exists (firstn 63 many_blocks). eexists. split; vm_compute; reflexivity. }
  destruct E as (FB & t & E & EB). pose proof init_rep as R.
  destruct (encode_seq_spec true 65536 (map many_fields_of (firstn 63 numbers)) _ _ R) as (bs & t' & E' & _ & H).
  { assert (K : forallb (forallb (header_okb true)) (map many_fields_of (firstn 63 numbers)) = true) by (vm_compute; reflexivity).
    rewrite forallb_forall in K. apply Forall_forall. intros hs Hhs. apply headers_okb_ok. exact (K hs Hhs). }
  { apply all_reachableb_ok. vm_compute. reflexivity. }
  rewrite E in E'. apply ret_inj, pair_equal_spec in E' as [<- _]. clear E.
  assert (S : same_tables m 65536 [] (concat (map many_fields_of (firstn 63 numbers)))).
  { destruct Hm as [->| ->]; [|apply same_tables_refl].
    set (D := nodup header_dec (concat (map many_fields_of (firstn 63 numbers)))).
    apply small_set_same_tables with D; [apply Z.leb_le; vm_compute; reflexivity|lia| |constructor|now intros h []].
    apply Forall_forall. intros h Hh. unfold D. now apply nodup_In. }
  specialize (H limit m S). apply (blocks_le _ _ (enc_profile_rfc limit)) in H. intros hss st.
  rewrite EB. intros K. apply blocks_app_inv in K as (h1 & h2 & stm & -> & K1 & K2).
  destruct (rfc_reading_unique _ _ _ _ _ _ _ H K1) as [_ ->]. inversion K2 as [|? ? ? ? ? ? ? K3 _]; subst.
  refine (stuck_no_block (rfc_profile limit) (rfc_profile_functional limit) _ [136] _ _ _ ([255; 92] ++ [2; 54; 52; 254; 253]) _ _ _ K3).
  - apply status_read.
  - apply wide_index_stuck with 219; [exact index_219|vm_compute; reflexivity].
Qed.
Theorem C81_decodable_refuted : forall linux, exists s e frames,
  reached linux 3 world (main_app short_page many_args) true the_tree k_std many_world true enough_resources [] s /\
  args_ok many_args many_files /\ files_fit short_page many_files /\ conn_at world s 4 e /\
  map (fun x => option_map (fun r => (rs_status r, rs_headers r, lenZ (rs_body r))) (snd x)) (requests (e_trace e)) =
    map (fun n => Some (200, [many_type], n)) numbers /\
  frames_octets frames (queued (e_trace e)) /\
  forall limit m hss st, m = 4096 \/ m = 65536 ->
    ~ rfc_blocks (rfc_profile limit) ([], m) (map w_payload (filter (fun f => w_type f =? 1) frames)) hss st.
Proof.
  intros linux.
  destruct (by_reached (linux := linux) (app := main_app short_page many_args) (cs := true) (T := the_tree) (w0 := many_world) downloads
    (fun s => match mget 4 (sv_conns world s) with Some e =>
       map (fun x => option_map (fun r => (rs_status r, rs_headers r, lenZ (rs_body r))) (snd x)) (requests (e_trace e)) =
         map (fun n => Some (200, [many_type], n)) numbers /\
       queued (e_trace e) = flat_map small_octets many_frames | None => False end)) as (s & H & K).
  - destruct linux; vm_compute; split; reflexivity.
  - apply iterations_ok. vm_compute. reflexivity.
  - destruct (mget 4 (sv_conns world s)) as [e|] eqn:E; [|destruct K]. destruct K as [K1 K2]. exists s, e, many_frames. split; [exact H|].
    split; [|split; [|split; [exact E|split; [exact K1|split]]]].
    + split; [apply real_nil|]. split; [now intros []|]. intros url root [= <- <-]. no_zero.
    + split; [reflexivity|]. intros l r io b. unfold many_files, disk. cbn [os_fs]. destruct (find _ _) as [x|] eqn:Ex; [|discriminate].
      apply find_some in Ex as [Ex _]. intros [= E']. apply in_app_or in Ex as [[<-|[<-|[]]]|Ex]; [discriminate E'..|].
      apply in_map_iff in Ex as (n & <- & Hn). cbn [snd] in E'. injection E' as _ _ <-. unfold lenZ. rewrite repeat_length.
      apply in_map_iff in Hn as (k & <- & Hk). apply in_seq in Hk. lia.
    + rewrite K2. apply small_frames_ok. vm_compute. reflexivity.
    + intros limit m hss st Hm. assert (EB : map w_payload (filter (fun f => w_type f =? 1) many_frames) = many_blocks) by (vm_compute; reflexivity).
      rewrite EB. apply many_lost. exact Hm.
Qed.
Print Assumptions C81_decodable_refuted.
