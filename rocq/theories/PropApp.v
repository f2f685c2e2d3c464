(** C62-C67 and C75: the access log, the statistics, durations, the configuration, the
    custom 404 page and HEAD. *)
From Verif Require Import Base BaseLemmas SpecFrames SpecHpack SpecHpackEnc Huffman HuffmanProofs DynTable HpackDec HpackEnc
  Frames FramesProofs Http Conn SpecConn ConnLemmas ConnRule ConnBasic ConnTerm ConnRun ConnSpec ConnMain ConnDet ConnMore
  ConnUndef ConnLast ConnWit FileSys Files SpecFiles FilesProofs FilesServe PropFiles
  Router SpecRouter RouterProofs App AccessLog SpecApp AppProofs.

(** ** The access log.  [log_file who ts (logged tr)] is what the log entries of a session
    with the client [who] add to the log file, at the times [ts]. *)
Lemma decimal_nonneg s n : decimal s n -> 0 <= n.
Proof.
  intros (Hd & <- & _).
  assert (G : forall acc, 0 <= acc -> 0 <= fold_left (fun a c => 10 * a + (c - 48)) s acc); [|apply (G 0); lia].
  induction Hd as [|c s Hc _ IH]; intros acc Ha; [exact Ha|]. cbn [fold_left]. apply IH. lia.
Qed.
Lemma answered_served ins txs outs : answered ins txs outs ->
  Forall (fun tx => served (tx_fields tx) (tx_app tx) (tx_sent tx)) txs /\
  length txs = length (filter (fun f => w_type f =? 1) ins).
Proof.
  induction 1 as [|ins txs outs flags stream payload H [I1 I2]|ins txs outs flags stream payload H [I1 I2]
    |ins txs outs flags stream payload tx fs H [I1 I2]|ins txs outs f H [I1 I2] N].
  - split; [constructor|reflexivity].
  - rewrite filter_app. cbn. now rewrite app_nil_r.
  - rewrite filter_app. cbn. now rewrite app_nil_r.
  - rewrite filter_app, !app_length. cbn. split; [|lia]. apply Forall_app. auto.
  - rewrite filter_app. cbn [filter]. destruct (Z.eqb_spec (w_type f) 1) as [E|_]; [easy|]. now rewrite app_nil_r.
Qed.
Lemma served_status hs l r : served hs l r -> 0 <= rs_status r.
Proof. intros [H|m p r' fields _ _ (s & len & _ & Hd & _)]; cbn [rs_status]; [lia|]. now apply decimal_nonneg in Hd. Qed.

(** C62.  One log entry for each HEADERS frame that was handled, and - provided that no
    header value contains a line break - one line. *)
Theorem C62_lines_partial : forall W app cs T others t0 w0 A r c tr w who ts,
  huffman_tree = Ret T -> answers_ok cs app ->
  session W app cs T others t0 w0 A r c tr w ->
  length ts = length (logged tr) -> peer_ok who -> Forall tm_ok ts ->
  (logged tr = [] /\ requests tr = []) \/
  exists ins txs outs byes escaped rest,
    conversation others app w0 tr ins txs outs byes escaped rest /\
    length (logged tr) = length (filter (fun f => w_type f =? 1) ins) /\
    (Forall (fun tx => fields_clean (tx_fields tx)) txs ->
     count 10 (log_file who ts (logged tr)) = length (filter (fun f => w_type f =? 1) ins)).
Proof.
  intros W app cs T others t0 w0 A r c tr w who ts HT Happ HS Hl Hip Ht.
  destruct (session_conversation W app cs T others t0 w0 (is_tree_intro T HT) Happ A r c tr w HS)
    as [(_ & Hr & Hg & _)|(ins & txs & outs & byes & escaped & rest & HC & _)]; [left; exact (conj Hg Hr)|right].
  destruct (answered_served _ _ _ (conv_answered _ _ _ _ _ _ _ _ _ _ HC)) as [Hs Hn].
  pose proof (conv_logged _ _ _ _ _ _ _ _ _ _ HC) as Hg.
  assert (Hn' : length (logged tr) = length (filter (fun f => w_type f =? 1) ins)) by (rewrite Hg, map_length; exact Hn).
  exists ins, txs, outs, byes, escaped, rest. split; [exact HC|]. split; [exact Hn'|].
  intros Hc. rewrite log_lines; auto. rewrite Hg. clear -Hs Hc. induction txs as [|tx txs IH]; [constructor|].
  apply Forall_cons_iff in Hs as [Hs Hs']. apply Forall_cons_iff in Hc as [Hc Hc']. apply Forall_cons; [|now apply IH].
  cbn. split; [exact Hc|]. split; [exact (served_status _ _ _ Hs)|unfold lenZ; lia].
Qed.
Print Assumptions C62_lines_partial.

Definition a_time : tm := Tm 9 10 126 8 5 7 (-12600).
Example C62_case : forall cs, exists T c tr w, huffman_tree = Ret T /\ answers_ok cs hi /\
  session unit hi cs T eq 0 tt any (Some WantRead) c tr w /\
  peer_ok (PeerV4 127 0 0 1) /\ tm_ok a_time /\ log_file (PeerV4 127 0 0 1) [a_time] (logged tr) =
    str "127.0.0.1 - - [09/Nov/2026:08:05:07 -0330] " ++ [34] ++ str "GET / HTTP/2" ++ [34] ++ str " 200 2 " ++ [34; 45; 34; 32; 34; 45; 34; 10].
Proof.
  intros cs. destruct (exchange the_tree cs) as (c & tr & w & H & _ & _ & L & _).
  exists the_tree, c, tr, w. split; [exact huffman_tree_eq|]. split; [apply hi_ok|]. split; [exact H|].
  split; [repeat apply Forall_cons; try apply Forall_nil; unfold is_byte; lia|]. split; [unfold tm_ok; cbn; lia|].
  rewrite L. reflexivity.
Qed.

(** A path with a line break makes two lines of one request. *)
Definition w_two_lines : bytes := [0; 0; 8; 1; 5; 0; 0; 0; 1; 130; 4; 5; 47; 10; 58; 45; 41].
Theorem C62_lines_refuted : forall cs, exists T c tr w rq resp,
  huffman_tree = Ret T /\ answers_ok cs hi /\ session unit hi cs T eq 0 tt any (Some WantRead) c tr w /\
  received tr = w_hello ++ w_two_lines /\ requests tr = [(rq, Some resp)] /\
  forall who t, peer_ok who -> tm_ok t -> count 10 (log_file who [t] (logged tr)) = 2%nat.
Proof.
  intros cs. exists the_tree.
  destruct (by_run hi cs the_tree eq 0 tt any [deliver [octets (w_hello ++ w_two_lines)]] (Some WantRead)
    (fun _ tr _ => received tr = w_hello ++ w_two_lines /\
       requests tr = [(Request (str "GET") [47; 10; 58; 45; 41] [Hdr (str ":method") (str "GET"); Hdr (str ":path") [47; 10; 58; 45; 41]],
                       Some (Response 200 [] [104; 105]))] /\
       logged tr = [([Hdr (str ":method") (str "GET"); Hdr (str ":path") [47; 10; 58; 45; 41]], 200, 2)]))
    as (c & tr & w & HS & R & Q & L); [scripts_ok|apply Forall_any|destruct cs; vm_compute; repeat split|].
  exists c, tr, w. eexists _, _. split; [exact huffman_tree_eq|]. split; [apply hi_ok|]. split; [exact HS|].
  split; [exact R|]. split; [exact Q|]. intros who t Hw Ht. rewrite L. cbn [log_file log_request]. rewrite app_nil_r.
  unfold log_text. rewrite !count_app, (count_zero 10 (clf_timestamp t)) by (apply (time_clean 10 t); [lia|now apply timestamp_shown]).
  match goal with |- (count 10 ?x + _)%nat = _ => assert (E : count 10 x = 0%nat) by (apply count_zero, (address_clean 10 who); [lia|exact Hw|exact (client_address who Hw)]) end.
  rewrite E. reflexivity.
Qed.
Print Assumptions C62_lines_refuted.

(** C63.  Each request that was answered has its entry; if the request has one :method and
    one :path, the line shows the method and path the handler was chosen by. *)
Theorem C63_recorded_partial : forall W app cs T others t0 w0 A r c tr w rq resp m p,
  huffman_tree = Ret T -> answers_ok cs app ->
  session W app cs T others t0 w0 A r c tr w -> In (rq, Some resp) (requests tr) ->
  only_field (rq_headers rq) (str ":method") m -> only_field (rq_headers rq) (str ":path") p ->
  In (rq_headers rq, rs_status resp, lenZ (rs_body resp)) (logged tr) /\
  forall who t, peer_ok who -> tm_ok t ->
    log_line who t (rq_method rq) (rq_path rq) (rq_headers rq) (rs_status resp) (lenZ (rs_body resp))
      (log_file who [t] [(rq_headers rq, rs_status resp, lenZ (rs_body resp))]).
Proof.
  intros W app cs T others t0 w0 A r c tr w rq resp m p HT Happ HS Hi Hm Hp.
  destruct (session_conversation W app cs T others t0 w0 (is_tree_intro T HT) Happ A r c tr w HS)
    as [(_ & Hr & _)|(ins & txs & outs & byes & escaped & rest & HC & _ & He & _)]; [rewrite Hr in Hi; destruct Hi|].
  destruct (answered_served _ _ _ (conv_answered _ _ _ _ _ _ _ _ _ _ HC)) as [Hs _].
  rewrite (conv_requests _ _ _ _ _ _ _ _ _ _ HC) in Hi. apply in_app_or in Hi as [Hi|Hi].
  2:{ destruct He as [->|[rq' ->]]; [destruct Hi|]. destruct Hi as [E|[]]. discriminate E. }
  apply in_concat in Hi as (l & Hl & Hi). apply in_map_iff in Hl as (tx & <- & Htx).
  rewrite Forall_forall in Hs. pose proof (Hs tx Htx) as Hx.
  rewrite (conv_logged _ _ _ _ _ _ _ _ _ _ HC).
  assert (K : tx_fields tx = rq_headers rq /\ rs_status (tx_sent tx) = rs_status resp /\ rs_body (tx_sent tx) = rs_body resp /\
    first_field (rq_headers rq) (str ":method") (rq_method rq) /\ first_field (rq_headers rq) (str ":path") (rq_path rq)).
  { clear -Hi Hx. destruct Hx as [|m p r fields H1 H2 H3]; [destruct Hi|]. destruct Hi as [E|[]]. injection E as <- <-. cbn [rq_headers rq_method rq_path rs_status rs_body]. auto. }
  destruct K as (K1 & K2 & K3 & K4 & K5). split.
  - apply in_map_iff. exists tx. split; [|exact Htx]. unfold log_entry. now rewrite K1, K2, K3.
  - intros who t Hw Ht. rewrite <- (only_first _ _ _ _ Hm K4), <- (only_first _ _ _ _ Hp K5). cbn [log_file log_request]. rewrite app_nil_r.
    destruct (log_line_made who t (rq_headers rq) (rs_status resp) (lenZ (rs_body resp)) Hw Ht) as (m' & p' & N1 & N2 & N3); [|apply lenZ_nonneg|].
    + rewrite <- K2. exact (served_status _ _ _ Hx).
    + apply (noted_only _ _ _ _ Hm) in N1. apply (noted_only _ _ _ _ Hp) in N2. now subst.
Qed.
Print Assumptions C63_recorded_partial.

Example C63_case : forall cs, exists T c tr w, huffman_tree = Ret T /\ answers_ok cs hi /\
  session unit hi cs T eq 0 tt any (Some WantRead) c tr w /\
  In (get_root, Some (Response 200 [] [104; 105])) (requests tr) /\
  only_field (rq_headers get_root) (str ":method") (str "GET") /\ only_field (rq_headers get_root) (str ":path") (str "/").
Proof.
  intros cs. destruct (exchange the_tree cs) as (c & tr & w & H & _ & Q & _).
  exists the_tree, c, tr, w. split; [exact huffman_tree_eq|]. split; [apply hi_ok|]. split; [exact H|].
  rewrite Q. split; [now left|]. split.
  - exists [], [Hdr (str ":path") (str "/")]. split; [reflexivity|]. apply Forall_cons; [intros E; discriminate E|apply Forall_nil].
  - exists [Hdr (str ":method") (str "GET")], []. split; [reflexivity|]. apply Forall_cons; [intros E; discriminate E|apply Forall_nil].
Qed.

(** With two :path fields the handler is chosen by the first (here /Q), the log shows the
    last (here /Z). *)
Definition w_two_paths : bytes := [0; 0; 9; 1; 5; 0; 0; 0; 1; 130; 4; 2; 47; 81; 4; 2; 47; 90].
Theorem C63_recorded_refuted : forall cs, exists T c tr w rq resp,
  huffman_tree = Ret T /\ answers_ok cs hi /\ session unit hi cs T eq 0 tt any (Some WantRead) c tr w /\
  received tr = w_hello ++ w_two_paths /\ requests tr = [(rq, Some resp)] /\ rq_path rq = str "/Q" /\
  forall who t, peer_ok who -> tm_ok t ->
    log_line who t (rq_method rq) (str "/Z") (rq_headers rq) 200 2 (log_file who [t] (logged tr)) /\
    ~ log_line who t (rq_method rq) (rq_path rq) (rq_headers rq) 200 2 (log_file who [t] (logged tr)).
Proof.
  intros cs. exists the_tree. set (hs := [Hdr (str ":method") (str "GET"); Hdr (str ":path") (str "/Q"); Hdr (str ":path") (str "/Z")]).
  destruct (by_run hi cs the_tree eq 0 tt any [deliver [octets (w_hello ++ w_two_paths)]] (Some WantRead)
    (fun _ tr _ => received tr = w_hello ++ w_two_paths /\
       requests tr = [(Request (str "GET") (str "/Q") hs, Some (Response 200 [] [104; 105]))] /\
       logged tr = [(hs, 200, 2)]))
    as (c & tr & w & HS & R & Q & L); [scripts_ok|apply Forall_any|destruct cs; vm_compute; repeat split|].
  exists c, tr, w. eexists _, _. split; [exact huffman_tree_eq|]. split; [apply hi_ok|]. split; [exact HS|].
  split; [exact R|]. split; [exact Q|]. split; [reflexivity|]. cbn [rq_method rq_path]. intros who t Hw Ht. rewrite L.
  cbn [log_file log_request rq_headers]. rewrite app_nil_r. split.
  - destruct (log_line_made who t hs 200 2 Hw Ht) as (m & p & N1 & N2 & N3); [lia|lia|].
    assert (E1 : m = str "GET").
    { eapply noted_only; [|exact N1]. exists [], [Hdr (str ":path") (str "/Q"); Hdr (str ":path") (str "/Z")]. split; [reflexivity|].
      repeat (apply Forall_cons; [intros E; discriminate E|]). apply Forall_nil. }
    assert (E2 : p = str "/Z").
    { destruct N2 as [(a & b & E & Hb)|[Hn _]].
      - unfold hs in E. destruct a as [|a1 a]; [discriminate E|]. injection E as _ E. destruct a as [|a2 a].
        + injection E as _ <-. apply Forall_cons_iff in Hb as [Hb _]. now cbn in Hb.
        + injection E as _ E. destruct a as [|a3 a]; [now injection E|]. injection E as _ E. now destruct a.
      - unfold hs, no_field in Hn. rewrite !Forall_cons_iff in Hn. destruct Hn as (_ & Hn & _). now cbn in Hn. }
    now rewrite E1, E2 in N3.
  - intros (a & b & d & e & f & g & _ & _ & _ & _ & _ & _ & E).
    assert (K : In 81 (log_text (client_ip who) (clf_timestamp t) hs 200 2)).
    { rewrite E. clear. repeat rewrite in_app_iff. do 6 right. left. right. left. reflexivity. }
    clear E. unfold log_text in K. do 3 rewrite in_app_iff in K.
    destruct K as [K|[K|[K|K]]]; [exact (address_clean 81 who _ (or_intror eq_refl) Hw (client_address who Hw) K)|clear -K|exact (time_clean 81 t _ (or_intror eq_refl) (timestamp_shown t Ht) K)|clear -K];
      vm_compute in K; repeat (destruct K as [K|K]; [discriminate K|]); exact K.
Qed.
Print Assumptions C63_recorded_refuted.

(** ** C64.  Any handlers and middlewares that leave the statistics alone may be registered
    besides; the statistics middleware is the first. *)
Theorem C64_statistics : forall a b l w,
  forallb (fun x => negb (is_middleware x)) a = true -> Forall polite a -> Forall polite b ->
  served_history (a ++ AddMiddleware stats_middleware :: b) l w ->
  total_requests (w_stats w) = u64 (how_many entered l) /\
  (forall code, lookup code (status_codes (w_stats w)) = u64 (how_many (answered_with code) l)) /\
  (how_many completed l < 2 ^ 64 -> sum (status_codes (w_stats w)) = how_many completed l).
Proof. exact history_counts. Qed.
Print Assumptions C64_statistics.

(** In the program no handler throws: the total is the number of requests and so is the
    sum of the counters. *)
Theorem C64_program : forall page a l w, a_status_page a = true ->
  served_history (main_registrations page a) l w -> lenZ l < 2 ^ 64 ->
  total_requests (w_stats w) = lenZ l /\ sum (status_codes (w_stats w)) = lenZ l /\
  forall code, lookup code (status_codes (w_stats w)) = how_many (answered_with code) l.
Proof.
  intros page a l w Ha H Hl. destruct (main_split page a Ha) as (xs & ys & E & H1 & H2 & H3).
  pose proof H as H'. rewrite E in H. destruct (history_counts xs ys l w H1 H2 H3 H) as (T1 & T2 & T3).
  assert (HA : Forall (fun x => exists r, x = Answers r) l).
  { clear -H'. induction H' as [| |l w rq w' x H IH E]; [constructor|auto|]. apply Forall_app. split; [exact IH|].
    constructor; [|constructor]. destruct (main_answers page a rq w) as (w2 & r & E'). unfold main_app in E'.
    rewrite E in E'. injection E' as _ ->. now exists r. }
  assert (He : how_many entered l = lenZ l /\ how_many completed l = lenZ l).
  { clear -HA. unfold how_many, lenZ. induction HA as [|x l [r ->] _ [I1 I2]]; [easy|]. cbn [filter entered completed length]. lia. }
  assert (Hb : forall code, 0 <= how_many (answered_with code) l <= lenZ l).
  { intros code. clear. unfold how_many, lenZ. induction l as [|x l IH]; cbn [filter length]; [lia|]. destruct (answered_with code x); cbn [length]; lia. }
  destruct He as [He Hc]. assert (0 <= lenZ l) by (unfold lenZ; lia).
  split; [rewrite T1, He; apply Z.mod_small; lia|]. split; [rewrite T3 by lia; exact Hc|].
  intros code. rewrite T2. apply Z.mod_small. specialize (Hb code). lia.
Qed.
Print Assumptions C64_program.

(** A world to start in, and the arguments of the program. *)
Definition a_world : world := World an_os no_stats (fun n => 1000 * Z.of_nat n) 0 true.
Definition some_args : args := Args true [] [] [str "/static"; str "/srv/www"] (str "/srv/www/a.txt") false true.
Definition plain_page (s : stats) (now : Z) : bytes := to_string (total_requests s).
Definition ask (m p : String.string) : request := Request (str m) (str p) [].
Fixpoint answers_to (app : request -> world -> world * app_answer) (rqs : list request) (w : world) : world * list app_answer :=
  match rqs with
  | [] => (w, [])
  | rq :: rqs => let (w1, a) := app rq w in let (w2, l) := answers_to app rqs w1 in (w2, a :: l)
  end.
Lemma history_of xs rqs : forall l w, served_history xs l w ->
  served_history xs (l ++ snd (answers_to (dispatch world w_os (configure world xs)) rqs w))
    (fst (answers_to (dispatch world w_os (configure world xs)) rqs w)).
Proof.
  induction rqs as [|rq rqs IH]; intros l w H; cbn [answers_to]; [cbn; now rewrite app_nil_r|].
  destruct (dispatch world w_os (configure world xs) rq w) as [w1 x] eqn:E.
  specialize (IH (l ++ [x]) w1 (history_request xs l w rq w1 x H E)).
  destruct (answers_to (dispatch world w_os (configure world xs)) rqs w1) as [w2 l2]. cbn [fst snd] in *. now rewrite <- app_assoc in IH.
Qed.
Example C64_case : exists l w, served_history (main_registrations plain_page some_args) l w /\
  l = [Answers (Response 200 [Hdr (str "content-type") (str "text/plain; charset=utf-8")] (str "text"));
       Answers (Response 404 [Hdr (str "content-type") (str "text/plain; charset=utf-8")] (str "text"));
       Answers (Response 200 [Hdr (str "content-type") (str "text/html; charset=utf-8"); Hdr (str "cache-control") (str "no-store")] (str "3"))] /\
  w_stats w = Stats 3 [(200, 2); (404, 1)] 4.
Proof.
  eexists _, _. split; [apply (history_of _ [ask "GET" "/static/a.txt"; ask "GET" "/nothing"; ask "GET" "/_ion/status"] [] a_world); constructor; reflexivity|].
  split; vm_compute; reflexivity.
Qed.
(** With a handler that throws. *)
Definition thrower : list (registration world) :=
  [AddRoute (str "/t") (str "GET") (fun _ w => (w, None)); AddMiddleware stats_middleware].
Example C64_throw_case : exists l w, served_history thrower l w /\
  how_many entered l = 2 /\ how_many completed l = 1 /\ w_stats w = Stats 2 [(404, 1)] 1.
Proof.
  eexists _, _. split; [apply (history_of thrower [ask "GET" "/t"; ask "GET" "/u"] [] a_world); constructor; reflexivity|].
  repeat split; vm_compute; reflexivity.
Qed.

(** ** C65.  The text is one of the forms of SpecApp.v, and a text stands for one duration
    only. *)
Theorem C65_duration : forall n, 0 <= n ->
  shown n (format_duration n) /\ forall n', shown n' (format_duration n) -> n' = n.
Proof. intros n H. pose proof (format_shown n H) as K. split; [exact K|]. intros n' H'. exact (shown_unique n' n _ H' K). Qed.
Print Assumptions C65_duration.
Example C65_case : format_duration 93784 = str "1d 2h 3m 4s" /\ format_duration 3600 = str "1h 0m 0s" /\ format_duration 59 = str "59s".
Proof. vm_compute. repeat split. Qed.

(** ** C66. *)
Theorem C66_validate : forall c,
  validate c = (if c_cleartext c then Ret tt
                else if match c_cert_path c, c_key_path c with Some _, Some _ => true | _, _ => false end then Ret tt else Throw) /\
  (validate c = Ret tt <-> c_cleartext c = true \/ (c_cert_path c <> None /\ c_key_path c <> None)).
Proof.
  intros [[cert|] [key|] []]; cbn; (split; [reflexivity|]); split; intros H; try (now left); try (right; split; discriminate);
    try reflexivity; try discriminate H; destruct H as [H|[H1 H2]]; congruence.
Qed.
Print Assumptions C66_validate.
(** From the arguments of the program to a running server. *)
Theorem C66_arguments : forall o library a,
  (new_server o library (to_server_config a) = Ret tt \/ new_server o library (to_server_config a) = Throw) /\
  (new_server o library (to_server_config a) = Ret tt ->
   a_cleartext a = true \/
   (a_cert_path a <> [] /\ a_key_path a <> [] /\ library = true /\
    fs_exists o (a_cert_path a) = Ret true /\ fs_exists o (a_key_path a) = Ret true)).
Proof.
  assert (X : forall o p, fs_exists o p = Ret true \/ fs_exists o p = Ret false \/ fs_exists o p = Throw).
  { intros o p. unfold fs_exists, fs_status. destruct (resolve o p) as [l|[]]; cbn [obind]; auto. destruct (os_fs o l); auto. }
  intros o library [clear cert key sm p404 ut sp]. unfold to_server_config, new_server, validate.
  cbn [a_cleartext a_cert_path a_key_path]. destruct clear.
  { destruct cert, key; cbn; auto. }
  destruct cert as [|x cert]; [destruct key; cbn; (split; [now right|discriminate])|].
  destruct key as [|y key]; cbn [c_cleartext c_cert_path c_key_path obind]; unfold tls_context;
    destruct (X o (x :: cert)) as [E1|[E1|E1]]; rewrite E1; cbn [obind negb]; try (split; [now right|discriminate]).
  destruct (X o (y :: key)) as [E2|[E2|E2]]; rewrite E2; cbn [obind negb]; try (split; [now right|discriminate]).
  destruct library; (split; [auto|]); [|discriminate]. intros _. right. repeat split; discriminate || auto.
Qed.
Print Assumptions C66_arguments.
Example C66_case :
  new_server an_os true (to_server_config (Args false (str "/etc/passwd") (str "/srv/www/key") [] [] false false)) = Ret tt /\
  new_server an_os true (to_server_config (Args false (str "/etc/passwd") [] [] [] false false)) = Throw /\
  validate (to_server_config (Args false (str "/etc/passwd") [] [] [] false false)) = Ret tt /\
  new_server an_os true (to_server_config (Args true [] [] [] [] false false)) = Ret tt.
Proof. vm_compute. repeat split. Qed.

(** ** C67.  [without_404 a]: the same arguments without a custom page. *)
Theorem C67_page : forall page a rq w w' r l b,
  a_status_404_file_path a <> [] ->
  readable_file (w_os w') (a_status_404_file_path a) l b ->
  main_app page (without_404 a) rq w = (w', Answers r) ->
  exists r', main_app page a rq w = (w', Answers r') /\
    (rs_status r = 404 -> rs_status r' = 404 /\ rs_body r' = b) /\
    (rs_status r <> 404 -> r' = r).
Proof.
  intros page a rq w w' r l b Ha Hf E. eexists. split; [exact (page_shown page a rq w w' r Ha E)|].
  split; intros Hs; [|now apply Z.eqb_neq in Hs; rewrite Hs]. rewrite Hs, Z.eqb_refl. cbv zeta.
  now rewrite (page_file _ _ _ _ Hf).
Qed.
Print Assumptions C67_page.
(** When the page cannot be read the response is still a 404, without a body. *)
Theorem C67_page_missing : forall page a rq w w' r,
  a_status_404_file_path a <> [] -> ~ In 0 (a_status_404_file_path a) ->
  (forall l b, ~ readable_file (w_os w') (a_status_404_file_path a) l b) ->
  main_app page (without_404 a) rq w = (w', Answers r) ->
  exists r', main_app page a rq w = (w', Answers r') /\
    (rs_status r = 404 -> rs_status r' = 404 /\ rs_body r' = []) /\
    (rs_status r <> 404 -> r' = r).
Proof.
  intros page a rq w w' r Ha Hz Hf E. eexists. split; [exact (page_shown page a rq w w' r Ha E)|].
  split; intros Hs; [|now apply Z.eqb_neq in Hs; rewrite Hs]. rewrite Hs, Z.eqb_refl. cbv zeta. split; [reflexivity|].
  cbn [rs_body]. exact (page_no_file _ _ Hf Hz).
Qed.
Print Assumptions C67_page_missing.
Example C67_case : exists w', main_app plain_page (without_404 some_args) (ask "GET" "/x") a_world = (w', Answers (Response 404 [] [])) /\
  readable_file (w_os w') (str "/srv/www/a.txt") (loc ["srv"; "www"; "a.txt"]%string) (str "text") /\
  main_app plain_page some_args (ask "GET" "/x") a_world =
    (w', Answers (Response 404 [Hdr (str "content-type") (str "text/plain; charset=utf-8")] (str "text"))).
Proof.
  eexists. split; [vm_compute; reflexivity|]. split; [|vm_compute; reflexivity].
  split; [discriminate|]. split; [no_zero|]. split; [apply walk_resolves; reflexivity|reflexivity].
Qed.
Example C67_missing_case : forall l b, ~ readable_file an_os (str "/srv/www/none") l b.
Proof.
  intros l b (_ & _ & H & Hl). apply walk_resolves in H. vm_compute in H. discriminate H.
Qed.

(** ** C75.  Partial: without a custom 404 page. *)
Theorem C75_head_partial : forall page a rq w w' r,
  a_status_404_file_path a = [] -> rq_method rq = str "HEAD" ->
  main_app page a rq w = (w', Answers r) -> rs_body r = [].
Proof. exact head_empty. Qed.
Print Assumptions C75_head_partial.
Example C75_case : exists w', main_app plain_page (without_404 some_args) (ask "HEAD" "/static/a.txt") a_world =
  (w', Answers (Response 200 [Hdr (str "content-length") (str "4"); Hdr (str "content-type") (str "text/plain; charset=utf-8")] [])).
Proof. eexists. vm_compute. reflexivity. Qed.
(** With a custom page a HEAD request for something missing gets the page as its body. *)
Theorem C75_head_refuted : exists page a rq w w' r, rq_method rq = str "HEAD" /\
  main_app page a rq w = (w', Answers r) /\ rs_body r <> [].
Proof.
  exists plain_page, some_args, (ask "HEAD" "/static/none"), a_world.
  eexists _, _. split; [reflexivity|]. split; [vm_compute; reflexivity|]. discriminate.
Qed.
Print Assumptions C75_head_refuted.
