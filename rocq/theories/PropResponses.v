(** C120: the responses the server sends are well-formed HTTP messages. *)
From Verif Require Import Base BaseLemmas SpecInt SpecFrames SpecHpack SpecHpackEnc Huffman HuffmanProofs Http Conn SpecConn SpecFlow SpecRules SpecResponses
  ConnLemmas ConnRule ConnBasic ConnTerm ConnRun ConnSpec ConnMain ConnDet ConnMore ConnUndef ConnLast ConnWit ConnFlow ConnBad RulesProofs ServerMore PropFlow
  FilesServe PropRules.

Lemma three_digits s n : decimal s n -> 200 <= n <= 599 ->
  exists a b c, s = [a; b; c] /\ 50 <= a <= 53 /\ 48 <= b <= 57 /\ 48 <= c <= 57 /\ n = 100 * (a - 48) + 10 * (b - 48) + (c - 48).
Proof.
  intros H Hn. exists (48 + n / 100), (48 + n / 10 mod 10), (48 + n mod 10).
  assert (N : n = 100 * (n / 100) + 10 * (n / 10 mod 10) + n mod 10).
  { pose proof (Z.div_mod n 10 ltac:(lia)). pose proof (Z.div_mod (n / 10) 10 ltac:(lia)). rewrite Z.div_div in * by lia. change (10 * 10) with 100 in *. lia. }
  pose proof (Z.mod_pos_bound n 10 ltac:(lia)). pose proof (Z.mod_pos_bound (n / 10) 10 ltac:(lia)).
  assert (2 <= n / 100 <= 5) by (split; [apply Z.div_le_lower_bound; lia|apply Z.lt_succ_r, Z.div_lt_upper_bound; lia]).
  split; [|lia]. apply (decimal_unique s _ n H). split; [repeat constructor; lia|]. split; [cbn [fold_left]; lia|]. lia.
Qed.

Lemma digits_value s n : decimal s n -> value_ok s.
Proof.
  intros (H & _ & _). rewrite Forall_forall in H.
  assert (K : forall c, In c s -> 48 <= c <= 57) by exact H. unfold value_ok, blank.
  repeat split; try (intros I; apply K in I; lia).
  - intros c r ->. specialize (K c (or_introl eq_refl)). lia.
  - intros c r ->. specialize (K c (in_elt c r [])). lia.
Qed.

(** [field_ok] and its parts decided, for literals. *)
Definition value_okb (v : bytes) : bool :=
  forallb (fun c => negb ((c =? 0) || (c =? 10) || (c =? 13))) v &&
  match v with c :: _ => negb ((c =? 32) || (c =? 9)) | [] => true end &&
  match rev v with c :: _ => negb ((c =? 32) || (c =? 9)) | [] => true end.
Lemma value_okb_ok v : value_okb v = true -> value_ok v.
Proof.
  unfold value_okb. intros H. apply andb_prop in H as [H H3]. apply andb_prop in H as [H1 H2]. rewrite forallb_forall in H1.
  unfold value_ok, blank. repeat split; try (intros I; apply H1 in I; cbn in I; discriminate).
  - intros c r ->. lia.
  - intros c r ->. rewrite rev_app_distr in H3. cbn [rev Datatypes.app] in H3. lia.
Qed.
Definition name_okb (n : bytes) : bool :=
  match n with [] => false | _ => true end && forallb (fun c => (33 <=? c) && (c <=? 126) && negb ((65 <=? c) && (c <=? 90)) && negb (c =? 58)) n.
Lemma name_okb_ok n : name_okb n = true -> name_ok n.
Proof.
  unfold name_okb. intros H. apply andb_prop in H as [H1 H2]. rewrite forallb_forall in H2. split; [intros ->; discriminate H1|].
  apply Forall_forall. intros c Hc. apply H2 in Hc. unfold name_octet. lia.
Qed.
Definition plain_name (n : bytes) : bool := name_okb n && negb (existsb (bytes_eqb n) connection_specific).
Lemma plain_name_ok n : plain_name n = true -> name_ok n /\ ~ In n connection_specific.
Proof.
  unfold plain_name. intros H. apply andb_prop in H as [H1 H2]. split; [now apply name_okb_ok|]. intros I.
  rewrite negb_true_iff in H2. rewrite <- not_true_iff_false in H2. apply H2. apply existsb_exists. exists n. split; [exact I|]. now apply bytes_eqb_eq.
Qed.
Lemma field_okb n v : plain_name n = true -> value_ok v -> field_ok (Hdr n v).
Proof. intros H Hv. destruct (plain_name_ok _ H) as [H1 H2]. split; [exact H1|]. split; [exact Hv|exact H2]. Qed.
Ltac literal_field := apply field_okb; [vm_compute; reflexivity|apply value_okb_ok; vm_compute; reflexivity].

(** What a handler may answer so that the response is well-formed. *)
Lemma response_well_formed r fields : response_fields r fields ->
  (well_formed_response fields (rs_body r) <->
   200 <= rs_status r <= 599 /\ (rs_status r = 204 \/ rs_status r = 304 -> rs_body r = []) /\ Forall field_ok (rs_headers r)).
Proof.
  intros (status & len & -> & Hd & H0 & H1). split.
  - intros [(a & b & c & rest & E & Ha & Hb & Hc & Hf & Hn)]. injection E as -> <-.
    assert (N : rs_status r = 100 * (a - 48) + 10 * (b - 48) + (c - 48)) by (destruct Hd as (_ & <- & _); cbn [fold_left]; lia).
    split; [lia|]. split; [|now apply Forall_app in Hf as [Hf _]]. intros K. apply Hn.
    destruct K as [K|K]; rewrite K in N; [left|right]; vm_compute; repeat f_equal; lia.
  - intros (Hs & Hn & Hf). constructor. destruct (three_digits _ _ Hd Hs) as (a & b & c & -> & Ha & Hb & Hc & N).
    exists a, b, c. eexists. split; [reflexivity|]. repeat (split; [assumption|]). split.
    + apply Forall_app. split; [exact Hf|]. apply Forall_app. split; [|constructor; [literal_field|constructor; [literal_field|constructor]]].
      destruct (rs_body r) as [|x l] eqn:Eb; [rewrite (H0 eq_refl); constructor|].
      destruct (H1 ltac:(discriminate)) as (n & Dn & ->). constructor; [|constructor]. apply field_okb; [vm_compute; reflexivity|now apply digits_value in Dn].
    + intros [K|K]; apply Hn; vm_compute in K; injection K as -> -> ->; lia.
Qed.

Lemma each_response ins txs outs tx : answered ins txs outs -> In tx txs ->
  (well_formed_response (rs_headers (tx_sent tx)) (rs_body (tx_sent tx)) <->
   exists rq h, tx_app tx = [(rq, Some h)] /\ 200 <= rs_status h <= 599 /\
     (rs_status h = 204 \/ rs_status h = 304 -> rs_body h = []) /\ Forall field_ok (rs_headers h)).
Proof.
  intros HA Hin.
  pose proof (answered_each _ _ _ HA) as Hsv. rewrite Forall_forall in Hsv. specialize (Hsv tx Hin). cbn beta in Hsv.
  destruct Hsv as [_|m p rs fields _ _ Hr]; cbn [rs_headers rs_body].
  - split; [intros [(a & b & c' & l & E & _)]; discriminate E|]. intros (rq & h & E & _). discriminate E.
  - rewrite (response_well_formed _ _ Hr). split; [intros K; exists (Request m p (tx_fields tx)), rs; split; [reflexivity|exact K]|].
    intros (rq & h & E & K). injection E as _ <-. exact K.
Qed.

(** ** C120.  A response is well-formed exactly if a handler made it, its status is that of
    a final response, its own fields are allowed in HTTP/2 and it has no body that its status
    forbids: the server's own fields are right, and it looks at none of the handler's. *)
Theorem C120_exactly : forall W app cs T others t0 w0 A r c tr w,
  huffman_tree = Ret T -> answers_ok cs app -> session W app cs T others t0 w0 A r c tr w ->
  silent r tr \/
  exists ins txs outs byes escaped rest, conversation others app w0 tr ins txs outs byes escaped rest /\
    forall tx, In tx txs ->
      (well_formed_response (rs_headers (tx_sent tx)) (rs_body (tx_sent tx)) <->
       exists rq h, tx_app tx = [(rq, Some h)] /\ 200 <= rs_status h <= 599 /\
         (rs_status h = 204 \/ rs_status h = 304 -> rs_body h = []) /\ Forall field_ok (rs_headers h)).
Proof.
  intros W app cs T others t0 w0 A r c tr w HT Happ H.
  destruct (session_conversation W app cs T others t0 w0 (is_tree_intro T HT) Happ A r c tr w H)
    as [Hs|(ins & txs & outs & byes & esc & rest & Hc & _)]; [now left|right].
  exists ins, txs, outs, byes, esc, rest. split; [exact Hc|]. intros tx Hin.
  exact (each_response _ _ _ _ (conv_answered _ _ _ _ _ _ _ _ _ _ Hc) Hin).
Qed.
Print Assumptions C120_exactly.

(** Three answers that are passed on though they make no well-formed response: a field that
    belongs to the connection, an upper-case name, a status that is not final. *)
Definition bad_answers : list response :=
  [Response 200 [Hdr (str "connection") (str "close")] (str "hi"); Response 200 [Hdr (str "Date") (str "")] (str "hi"); Response 100 [] []].
Definition careless (k : nat) (_ : request) (w : unit) : unit * app_answer := (w, Answers (nth k bad_answers (Response 200 [] []))).
Lemma careless_ok cs k : answers_ok cs (careless k).
Proof.
  intros rq w1 w2 r E. apply (f_equal snd) in E. cbn [careless snd] in E.
  assert (K : Forall (answer_ok cs) bad_answers) by (repeat constructor; cbn; lia).
  assert (E' : nth k bad_answers (Response 200 [] []) = r) by congruence. subst r.
  destruct (nth_in_or_default k bad_answers (Response 200 [] [])) as [I|E']; [rewrite Forall_forall in K; now apply K|rewrite E'; repeat constructor; cbn; lia].
Qed.
Theorem C120_well_formed_refuted : forall k cs, (k < 3)%nat -> exists T c tr w ins txs outs byes escaped rest tx,
  huffman_tree = Ret T /\ session unit (careless k) cs T eq 0 tt any (Some WantRead) c tr w /\
  conversation eq (careless k) tt tr ins txs outs byes escaped rest /\ In tx txs /\
  tx_app tx = [(get_root, Some (nth k bad_answers (Response 200 [] [])))] /\
  ~ well_formed_response (rs_headers (tx_sent tx)) (rs_body (tx_sent tx)).
Proof.
  intros k cs Hk.
  assert (H : forall T, exists c tr w, session unit (careless k) cs T eq 0 tt any (Some WantRead) c tr w /\
    requests tr = [(get_root, Some (nth k bad_answers (Response 200 [] [])))]).
  { intros T. apply (by_run (careless k) cs T eq 0 tt any [deliver [octets (w_hello ++ w_get)]]); [scripts_ok|apply Forall_any|].
    destruct k as [|[|[|]]]; [destruct cs; vm_compute; repeat split ..|lia]. }
  destruct (H the_tree) as (c & tr & w & HS & Q).
  destruct (session_conversation unit (careless k) cs the_tree eq 0 tt (is_tree_intro _ huffman_tree_eq) (careless_ok cs k) any (Some WantRead) c tr w HS)
    as [(_ & K & _)|(ins & txs & outs & byes & esc & rest & Hc & _ & _ & He & _)]; [now rewrite Q in K|].
  destruct (He ltac:(discriminate)) as [_ ->].
  pose proof (conv_requests _ _ _ _ _ _ _ _ _ _ Hc) as R. rewrite Q, app_nil_r in R.
  assert (I : exists tx, In tx txs /\ tx_app tx = [(get_root, Some (nth k bad_answers (Response 200 [] [])))]).
  { clear - R. induction txs as [|tx txs IH]; cbn [map concat] in R; [discriminate R|].
    destruct (tx_app tx) as [|x [|y l]] eqn:E; cbn [Datatypes.app] in R.
    - destruct (IH R) as (tx' & I & E'). exists tx'. split; [now right|exact E'].
    - exists tx. split; [now left|]. rewrite E. f_equal. exact (f_equal (hd x) (eq_sym R)).
    - apply (f_equal (@length _)) in R. cbn in R. lia. }
  destruct I as (tx & I & E). exists the_tree, c, tr, w, ins, txs, outs, byes, [], rest, tx.
  split; [exact huffman_tree_eq|]. split; [exact HS|]. split; [exact Hc|]. split; [exact I|]. split; [exact E|].
  rewrite (each_response _ _ _ _ (conv_answered _ _ _ _ _ _ _ _ _ _ Hc) I), E. intros (rq & h & E' & Hs & _ & Hf).
  assert (E2 : nth k bad_answers (Response 200 [] []) = h) by (apply (f_equal (fun l => match l with [(_, Some y)] => y | _ => Response 0 [] [] end)) in E'; exact E').
  subst h. destruct k as [|[|[|]]]; cbn [nth bad_answers rs_status rs_headers] in Hs, Hf; try lia; apply Forall_inv in Hf; destruct Hf as (Hn & _ & Hc').
  - apply Hc'. now left.
  - destruct Hn as [_ Hn]. apply Forall_inv in Hn. destruct Hn as (_ & Hn & _). apply Hn. vm_compute. split; discriminate.
Qed.
Print Assumptions C120_well_formed_refuted.

(** A handler that answers as it should. *)
Example C120_case : forall cs, exists T c tr w, huffman_tree = Ret T /\ answers_ok cs hi /\
  session unit hi cs T eq 0 tt any (Some WantRead) c tr w /\ ~ silent (Some WantRead) tr /\
  exists h, requests tr = [(get_root, Some h)] /\ 200 <= rs_status h <= 599 /\ rs_body h <> [] /\ Forall field_ok (rs_headers h).
Proof.
  intros cs.
  assert (H : forall T, exists c tr w, session unit hi cs T eq 0 tt any (Some WantRead) c tr w /\
    exists h, requests tr = [(get_root, Some h)] /\ 200 <= rs_status h <= 599 /\ rs_body h <> [] /\ rs_headers h = []).
  { intros T. apply (by_run hi cs T eq 0 tt any [deliver [octets (w_hello ++ w_get)]]); [scripts_ok|apply Forall_any|].
    destruct cs; vm_compute; repeat (first [split|eexists]); easy. }
  destruct (H the_tree) as (c & tr & w & HS & h & Q & Hs & Hb & Hh). exists the_tree, c, tr, w. split; [exact huffman_tree_eq|].
  split; [apply hi_ok|]. split; [exact HS|]. split; [intros (_ & K & _); now rewrite Q in K|].
  exists h. rewrite Hh. auto.
Qed.

From Verif Require Import FileSys SpecFiles App SpecProgram Poller Server SpecServer ServerProofs PropApp PropServer PropServer2 PropProgram.
Lemma type_value name t : type_of_name name t -> value_ok t.
Proof.
  intros H. apply value_okb_ok. destruct H as [a e t _ _ I|_]; [|vm_compute; reflexivity].
  assert (K : forallb (fun x => value_okb (snd x)) known_types = true) by (vm_compute; reflexivity).
  rewrite forallb_forall in K. exact (K _ I).
Qed.
Definition answer_fine (r : response) : Prop :=
  200 <= rs_status r <= 599 /\ (rs_status r = 204 \/ rs_status r = 304 -> rs_body r = []) /\ Forall field_ok (rs_headers r).
Lemma bare_fine s : In s [200; 204; 403; 404; 500] -> answer_fine (Response s [] []).
Proof. intros H. split; [cbn in *; lia|]. split; [reflexivity|constructor]. Qed.
Lemma typed_fine s t b : s = 200 \/ s = 404 -> value_ok t -> answer_fine (Response s [Hdr (str "content-type") t] b).
Proof.
  intros H Ht. split; [cbn; lia|]. split; [cbn; lia|]. constructor; [|constructor]. apply field_okb; [vm_compute; reflexivity|exact Ht].
Qed.
Lemma content_fine head io name t b r : type_of_name name t -> file_content head io t b r -> answer_fine r.
Proof.
  intros Ht H. apply type_value in Ht. unfold file_content in H. destruct head; [|destruct io; subst r; [apply typed_fine; auto|apply bare_fine; cbn; auto 8]].
  destruct H as (n & Hn & ->). split; [cbn; lia|]. split; [cbn; lia|]. cbn [rs_headers].
  constructor; [|constructor; [|constructor]]; (apply field_okb; [vm_compute; reflexivity|]); [now apply digits_value in Hn|exact Ht].
Qed.
Lemma program_fine page a o nnp p m r : program_answer page a o nnp p m r -> answer_fine r.
Proof.
  assert (F : forall r, first_answer page a o nnp p m r -> answer_fine r).
  { clear r. intros r H. destruct H as [st now _ _ _|r _ _ Ht|url root r _ _ Hf|_ _].
    - split; [cbn; lia|]. split; [cbn; lia|]. constructor; [literal_field|constructor; [literal_field|constructor]].
    - destruct Ht as [| | |b _ _|b _ _]; [apply bare_fine; cbn; auto 8|apply bare_fine; cbn; auto 8|apply bare_fine; destruct nnp; cbn; auto 8| |];
        (split; [cbn; lia|]; split; [cbn; lia|constructor]).
    - destruct Hf; try (apply bare_fine; cbn; auto 8; fail); eapply content_fine; eassumption.
    - apply bare_fine; cbn; auto 8. }
  intros [r' H _|r' l b t _ _ _ _ Ht|r' _ _ _ _]; [now apply F|apply typed_fine; [auto|now apply type_value in Ht]|apply bare_fine; cbn; auto 8].
Qed.

(** The shipped program: every response is well-formed but for the one to a request without
    :method or :path. *)
Theorem C120_program_partial : forall linux listener page a cs T k0 w0 ok A pending s e,
  huffman_tree = Ret T -> setting listener k0 -> reached linux listener world (main_app page a) cs T k0 w0 ok A pending s ->
  args_ok a (w_os w0) -> files_fit page (w_os w0) -> anyone world s e ->
  silent (e_result e) (e_trace e) \/
  exists ins txs outs byes, answered ins txs outs /\ requests (e_trace e) = concat (map tx_app txs) /\
    frames_octets (server_settings :: outs ++ byes) (queued (e_trace e)) /\
    forall tx, In tx txs ->
      (well_formed_response (rs_headers (tx_sent tx)) (rs_body (tx_sent tx)) /\ tx_app tx <> []) \/
      (tx_sent tx = Response 400 [] [] /\ tx_app tx = [] /\ (no_field (tx_fields tx) (str ":path") \/ no_field (tx_fields tx) (str ":method"))).
Proof.
  intros linux listener page a cs T k0 w0 ok A pending s e HT Hs H Ha Hf He.
  destruct (C81_octets_partial linux listener page a cs T k0 w0 ok A pending s e HT Hs H Ha Hf He)
    as [K|(ins & txs & outs & byes & rest & _ & HA & HB & HR & _ & _ & HQ & _)]; [now left|right].
  exists ins, txs, outs, byes. split; [exact HA|]. split; [exact HR|]. split; [exact HQ|]. intros tx Hin.
  rewrite (each_response _ _ _ _ HA Hin).
  pose proof (answered_each _ _ _ HA) as Hsv. rewrite Forall_forall in Hsv, HB. specialize (Hsv tx Hin). cbn beta in Hsv. specialize (HB tx Hin). unfold served_by in HB.
  destruct Hsv as [Hn|m p r fields _ _ Hr]; [right; auto|left]. split; [|discriminate].
  destruct (HB _ _ (or_introl eq_refl)) as (r' & E & P). apply (f_equal (fun x => match x with Some y => y | None => r' end)) in E. subst r'.
  exists (Request m p (tx_fields tx)), r. split; [reflexivity|]. exact (program_fine _ _ _ _ _ _ _ P).
Qed.
Print Assumptions C120_program_partial.

(** A client asks for a file, for a page that does not exist, and for nothing. *)
Definition three_visit : list iteration :=
  [at_time 0 [arrives 4]; at_time 0 [sends 4 (w_hello ++ get 1 (str "/static/a.txt") ++ get 3 (str "/none") ++ [0; 0; 1; 1; 5; 0; 0; 0; 5; 130])]].
Example C120_program_case : forall linux, exists s e, huffman_tree = Ret the_tree /\
  reached linux 3 world (main_app short_page some_args) true the_tree k_std a_world true enough_resources [] s /\
  args_ok some_args (w_os a_world) /\ files_fit short_page (w_os a_world) /\ conn_at world s 4 e /\
  map (fun x => (rq_path (fst x), option_map rs_status (snd x))) (requests (e_trace e)) =
    [(str "/static/a.txt", Some 200); (str "/none", Some 404)] /\ map (fun x => snd (fst x)) (logged (e_trace e)) = [200; 404; 400].
Proof.
  intros linux.
  destruct (by_reached (linux := linux) (app := main_app short_page some_args) (cs := true) (T := the_tree) (w0 := a_world) three_visit
    (fun s => match mget 4 (sv_conns world s) with Some e =>
       map (fun x => (rq_path (fst x), option_map rs_status (snd x))) (requests (e_trace e)) =
         [(str "/static/a.txt", Some 200); (str "/none", Some 404)] /\ map (fun x => snd (fst x)) (logged (e_trace e)) = [200; 404; 400] | None => False end)) as (s & H & K).
  - destruct linux; vm_compute; split; reflexivity.
  - apply iterations_ok. vm_compute. reflexivity.
  - destruct (mget 4 (sv_conns world s)) as [e|] eqn:E; [|destruct K]. exists s, e. split; [exact huffman_tree_eq|]. split; [exact H|].
    split; [exact some_args_ok|]. split; [exact short_fit|]. split; [exact E|exact K].
Qed.
