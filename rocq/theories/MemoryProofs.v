(** Bounds on what is kept for clients. *)
From Verif Require Import Base BaseLemmas SpecTable SpecHpack SpecHpackEnc IntCodec Huffman HuffmanProofs DynTable DynTableProofs
  HpackLemmas HpackDec HpackDecProofs HpackEnc HpackEncProofs HpackEncSize Frames FramesProofs Http Conn SpecConn ConnLemmas
  ConnRule ConnBasic ConnTerm SpecMemory Poller Server SpecServer ServerProofs ServerReach ServerHistory.

Lemma block_bound_app a b : block_bound (a ++ b) = block_bound a + block_bound b.
Proof. unfold block_bound. induction a as [|h a IH]; cbn [Datatypes.app fold_right]; [lia|]. rewrite IH. lia. Qed.
Lemma block_bound_nonneg a : 0 <= block_bound a.
Proof.
  unfold block_bound. induction a as [|h a IH]; cbn [fold_right]; [lia|].
  pose proof (lenZ_nonneg (h_name h)). pose proof (lenZ_nonneg (h_value h)). lia.
Qed.

Lemma fh_serialize_len h : lenZ (fh_serialize h) = 9.
Proof. reflexivity. Qed.

Lemma write_data_size fuel : forall stream body o, write_data_response fuel stream body = Ret o ->
  lenZ o <= lenZ body + 9 * (lenZ body / 16256 + 1).
Proof.
  induction fuel as [|f IH]; intros stream body o; (destruct body as [|b body]; [intros [= <-]; cbn; lia|]); [discriminate|].
  cbn [write_data_response]. unfold MAX_FRAME_SIZE. change (16384 - 128) with 16256.
  set (B := b :: body). set (n := Z.min (lenZ B) 16256). set (rest := skipn (Z.to_nat n) B).
  assert (H1 : 1 <= lenZ B) by (subst B; rewrite lenZ_cons; pose proof (lenZ_nonneg body); lia).
  assert (Hn : lenZ (firstn (Z.to_nat n) B) = n) by (unfold lenZ in *; rewrite firstn_length; lia).
  assert (Hr : lenZ rest = lenZ B - n) by (subst rest; unfold lenZ in *; rewrite skipn_length; lia).
  destruct (write_data_response f stream rest) as [more| | |] eqn:E; try discriminate. cbn [obind].
  intros E2. apply (f_equal (fun x => match x with Ret y => lenZ y | _ => 0 end)) in E2. rewrite !lenZ_app, Hn in E2. cbv beta iota in E2.
  rewrite fh_serialize_len in E2. rewrite <- E2. clear E2.
  destruct (Z_le_gt_dec (lenZ B) 16256) as [L|L].
  - assert (rest = []) as R by (apply lenZ_0; lia).
    rewrite R in E. assert (more = []) as -> by (destruct f; now injection E). rewrite lenZ_nil.
    pose proof (Z.div_pos (lenZ B) 16256). lia.
  - apply IH in E. rewrite Hr in E. replace (lenZ B - n) with (lenZ B + (-1) * 16256) in E by lia.
    rewrite Z.div_add in E by lia. lia.
Qed.

(** What one request adds to the output buffer. *)
Lemma complete_room cs r : answer_ok cs r -> block_bound (rs_headers (complete_response r)) <= 756 + block_bound (rs_headers r).
Proof.
  intros (Hs & Hb & _). unfold complete_response. cbn [rs_headers].
  destruct (to_string_spec (rs_status r) ltac:(lia)) as [_ L1].
  assert (L2 := proj2 (to_string_spec (lenZ (rs_body r)) (lenZ_nonneg _)) Hb). specialize (L1 ltac:(lia)).
  change (Hdr (str ":status") (to_string (rs_status r)) :: rs_headers r ++ ?x) with
    ([Hdr (str ":status") (to_string (rs_status r))] ++ rs_headers r ++ x).
  rewrite !block_bound_app.
  assert (E : forall n v, block_bound [Hdr n v] = 16 + 4 * (lenZ n + lenZ v)) by (intros; cbn; lia).
  assert (block_bound [Hdr (str "server") SERVER_HEADER; Hdr (str "x-powered-by") SERVER_HEADER] = 128) as -> by reflexivity.
  rewrite E. change (lenZ (str ":status")) with 7. destruct (rs_body r) as [|x xs]; [cbn [block_bound fold_right]; lia|].
  rewrite E. change (lenZ (str "content-length")) with 14. lia.
Qed.

(** A request as the application may see it: at most 16384 fields, of names and values of
    at most 4096 octets. *)
Definition request_within (rq : request) : Prop :=
  lenZ (rq_headers rq) <= 16384 /\ Forall (fun h => lenZ (h_name h) <= 4096 /\ lenZ (h_value h) <= 4096) (rq_headers rq).
Definition requests_within (tr : trace) : Prop := Forall (fun x => request_within (fst x)) (requests tr).

Lemma decode_small T t data res t' : is_tree T -> table_ok t -> small_state (state_of t) -> all_bytes data ->
  hpack_decode T t data = Ret (res, t') ->
  small_state (state_of t') /\
  match res with Val hs => Forall small_header hs /\ (length hs <= length data)%nat | Error _ => True end.
Proof.
  intros HT Ht Hs Hd E. rewrite (is_tree_unique T HT) in E.
  destruct (hpack_decode_outcome t data Ht Hd)
    as [(hs' & t2 & E' & Ht' & Hb)|(r1 & r2 & hs' & t2 & _ & _ & Ht' & Hb & [(E' & _)|(E' & _)])];
    rewrite E in E'; try easy; inversion E'; subst; apply block_small in Hb as (H1 & H2 & H3); auto.
Qed.

(** The answers given so far are such as can be sent, in at most [K] octets each. *)
Definition answer_within (cs : bool) (K : Z) (a : option response) : Prop :=
  match a with Some r => answer_ok cs r /\ answer_room r <= K | None => True end.
Definition answered_within (cs : bool) (K : Z) (tr : trace) : Prop := Forall (fun x => answer_within cs K (snd x)) (requests tr).

Section Memory.
  Variable W : Type.
  Variable app : request -> W -> W * app_answer.
  Variable cs : bool.
  Variable T : tree.
  Hypothesis HT : is_tree T.
  Variable K : Z.
  Hypothesis HK : 783 <= K.

  Lemma complete_ok r : answer_ok cs r -> Forall (header_ok cs) (rs_headers (complete_response r)).
  Proof.
    intros H. assert (A : answers_ok cs (fun (_ : request) (w : unit) => (w, Answers r))) by (intros rq w w' r' [= _ <-]; exact H).
    eapply (process_request_ok unit _ cs [Hdr (str ":path") []; Hdr (str ":method") []] tt tt _ _ A). reflexivity.
  Qed.

  Lemma frame_room f d e w fe d' e' w' ev : all_bytes (f_payload f) ->
    process_frame W app cs T f d e w = Ret (fe, d', e', w', ev) -> answered_within cs K ev ->
    lenZ (queued ev) <= K /\ (enc_ok e -> enc_ok e').
  Proof.
    unfold answered_within. intros Hp E. apply process_frame_inv in E.
    destruct E as [H|[H|[H|[H|[H|[H|H]]]]]]; try (decompose [and] H; subst; intros _; split; [cbn; lia|auto]).
    destruct H as (_ & b & Eb & [H|[(er & H)|(hs & resp & evr & Ed & Er & H)]]); try (decompose [and] H; subst; intros _; split; [cbn; lia|auto]).
    assert (Q : queued evr = []).
    { apply process_request_inv in Er as [(_ & _ & _ & ->)|(p & m & a & _ & _ & _ & [(_ & _ & ->)|(r & _ & _ & ->)])]; reflexivity. }
    destruct H as [(_ & _ & -> & ->)|(rs & -> & [(_ & _ & -> & ->)|(b' & data & Ee & Ew & _ & ->)])]; try (rewrite Q; intros _; split; [cbn; lia|auto]).
    rewrite queued_app, Q, requests_app. cbn [Datatypes.app queued requests flat_map]. rewrite !app_nil_r, lenZ_app.
    unfold write_headers_response. rewrite lenZ_app, fh_serialize_len. intros HA.
    assert (G : Forall (header_ok cs) (rs_headers rs) /\ 774 + block_bound (rs_headers rs) - 756 + lenZ (rs_body rs) + 9 * (lenZ (rs_body rs) / 16256 + 1) <= K).
    { apply process_request_inv in Er as [(_ & _ & [= ->] & _)|(p & m & a & _ & _ & Eapp & [(_ & ? & _)|(r & Hr & [= ->] & ->)])]; try easy.
      - split; [constructor|]. change (block_bound (rs_headers (Response 400 [] []))) with 0.
        change (lenZ (rs_body (Response 400 [] []))) with 0. change (0 / 16256) with 0. lia.
      - inversion_clear HA as [|x l A _]. cbn [snd answer_within] in A. destruct A as [A1 A2].
        split; [now apply complete_ok|]. pose proof (complete_room cs r A1). unfold answer_room in A2.
        change (rs_body (complete_response r)) with (rs_body r). lia. }
    destruct G as [G1 G2]. pose proof (hpack_encode_size cs (rs_headers rs) _ _ _ G1 Ee) as L. apply write_data_size in Ew.
    split; [lia|]. intros (l & He). destruct (hpack_encode_defined cs 65536 _ G1 e l He) as (b2 & e2 & l2 & Ee2 & R).
    rewrite Ee in Ee2. injection Ee2 as _ <-. now exists l2.
  Qed.

  Lemma frame_requests f d e w fe d' e' w' ev : all_bytes (f_payload f) -> lenZ (f_payload f) <= 16384 ->
    table_ok d -> small_state (state_of d) ->
    process_frame W app cs T f d e w = Ret (fe, d', e', w', ev) -> small_state (state_of d') /\ requests_within ev.
  Proof.
    intros Hp Hl Hd Hs E. unfold requests_within. apply process_frame_inv in E.
    destruct E as [H|[H|[H|[H|[H|[H|H]]]]]]; try (decompose [and] H; subst; split; [exact Hs|constructor]).
    destruct H as (_ & b & Eb & [H|[(er & H)|(hs & resp & evr & Ed & Er & H)]]).
    - decompose [and] H; subst; split; [exact Hs|constructor].
    - destruct H as (Ed & _ & _ & _ & ->). apply decode_small in Ed as [S _]; auto; [|eapply headers_block_bytes; eauto].
      split; [exact S|constructor].
    - apply decode_small in Ed as (S & S2 & S3); auto; [|eapply headers_block_bytes; eauto]. split; [exact S|].
      assert (Lb : lenZ b <= lenZ (f_payload f)).
      { unfold headers_block, subspan_from in Eb. destruct (has_flag f 32).
        - destruct (_ <? _)%nat; [discriminate|]. apply (f_equal (fun x => match x with Ret y => lenZ y | _ => 0 end)) in Eb.
          rewrite <- Eb. unfold lenZ. rewrite skipn_length. lia.
        - now injection Eb as <-. }
      assert (R : requests ev = requests evr).
      { destruct H as [(_ & _ & _ & ->)|(rs & -> & [(_ & _ & _ & ->)|(b' & data & Ee & Ew & _ & ->)])]; try reflexivity.
        rewrite requests_app. cbn [requests flat_map Datatypes.app]. now rewrite app_nil_r. }
      rewrite R.
      assert (G : request_within (Request [] [] hs)) by (split; cbn [rq_headers]; [unfold lenZ in *; lia|exact S2]).
      apply process_request_inv in Er as [(_ & _ & _ & ->)|(p & m & a & _ & _ & _ & [(_ & _ & ->)|(r & _ & _ & ->)])];
        repeat constructor; exact S2 || apply G.
  Qed.

  Definition small_conn (c : conn) : Prop := table_ok (c_dec c) /\ small_state (state_of (c_dec c)).

  Lemma chunk_payload o f : chunk o f -> lenZ (f_payload f) <= 16384.
  Proof.
    intros (Ho & _ & _ & -> & L1 & L2). unfold MAX_FRAME_SIZE in L2. unfold lenZ in *. rewrite skipn_length. lia.
  Qed.

  Lemma read_room c w v c' ev w' : all_bytes (c_rbuf c) -> small_conn c ->
    try_read_frame W app cs T c w = Ret (v, c', ev, w') ->
    (answered_within cs K ev -> lenZ (c_wbuf c') <= lenZ (c_wbuf c) + K /\ (enc_ok (c_enc c) -> enc_ok (c_enc c'))) /\
    small_conn c' /\ requests_within ev.
  Proof.
    intros Hb [Hd Hs] E. apply try_read_frame_inv in E; auto.
    destruct E as [(_ & -> & -> & _)|[(_ & -> & -> & _)|(o & rest & f & fe & d & e & Er & Hc & Ep & Hfe)]].
    - split; [intros _; split; [lia|auto]|]. repeat split; try apply Hd; try apply Hs. constructor.
    - split; [intros _; split; [cbn; lia|auto]|]. repeat split; try apply Hd; try apply Hs. constructor.
    - pose proof (chunk_bytes _ _ Hc) as P1. pose proof (chunk_payload _ _ Hc) as P2.
      pose proof (frame_room _ _ _ _ _ _ _ _ _ P1 Ep) as Q. pose proof (frame_requests _ _ _ _ _ _ _ _ _ P1 P2 Hd Hs Ep) as [S R].
      apply (process_frame_tables W app cs T HT) in Ep as [H1 _]; auto.
      split; [intros HA; destruct (Q HA) as [Q1 Q2]|split; [|exact R]]; destruct fe; destruct Hfe as [_ ->]; cbn [c_wbuf c_dec c_enc]; try (split; assumption);
        rewrite lenZ_app; (split; [lia|exact Q2]).
  Qed.

  Lemma dispatch_room c w v c' ev w' : buffered c -> small_conn c -> c_wbuf c = [] -> c_state c <> AwaitingHandshake ->
    dispatch W app cs T c w = Ret (v, c', ev, w') ->
    (answered_within cs K ev -> lenZ (c_wbuf c') <= 27 + K /\ (enc_ok (c_enc c) -> enc_ok (c_enc c'))) /\
    small_conn c' /\ requests_within ev.
  Proof.
    intros [Hb Hl] Hsm Hw Hs E. apply dispatch_inv in E; auto.
    assert (N : requests_within []) by constructor.
    destruct E as [(_ & _ & _ & -> & -> & _)|[(_ & _ & _ & _ & -> & -> & _)|[(rest & ev2 & _ & Er & -> & E)|
      [(_ & E)|[(_ & _ & -> & -> & _)|[(_ & _ & -> & -> & _)|(_ & _ & -> & -> & _)]]]]]];
      try (split; [intros _; rewrite Hw, lenZ_nil; split; [lia|auto]|split; assumption]).
    - apply read_room in E as (E1 & E2 & E3); auto.
      + split; [|split; assumption]. intros HA. cbn [c_wbuf c_enc] in E1. rewrite Hw in E1. change (lenZ ([] ++ write_settings)) with 27 in E1. now apply E1.
      + cbn [c_rbuf]. rewrite Er in Hb. now apply all_bytes_app in Hb.
    - apply read_room in E as (E1 & E2 & E3); auto. rewrite Hw, lenZ_nil in E1. split; [|split; assumption].
      intros HA. destruct (E1 HA). split; [lia|assumption].
    - cbn [set_state c_wbuf c_enc]. rewrite Hw, lenZ_nil. split; [intros _; split; [lia|auto]|]. split; [exact Hsm|constructor].
    - cbn [set_state enqueue c_wbuf c_enc]. rewrite Hw. change (lenZ ([] ++ write_goaway 1 1)) with 17. split; [intros _; split; [lia|auto]|]. split; [exact Hsm|constructor].
  Qed.

  Variable others : W -> W -> Prop.
  Variable t0 : Z.
  Variable w0 : W.
  Definition room_ok (c : conn) (tr : trace) : Prop :=
    (answered_within cs K tr -> lenZ (c_wbuf c) <= 27 + K /\ enc_ok (c_enc c)) /\ small_conn c /\ requests_within tr.

  Lemma flush_room wr c c' ev wr' tr : flush_write_buffer wr c = (c', ev, wr') -> room_ok c tr -> room_ok c' (tr ++ ev).
  Proof.
    unfold flush_write_buffer, room_ok, small_conn, requests_within, answered_within. destruct (c_wbuf c) as [|x b] eqn:Eb.
    - intros [= <- <- _]. rewrite app_nil_r, Eb. auto.
    - destruct wr as [|[now [n|k|e]] wr]; intros [= <- <- _] (H1 & H2 & H3); rewrite requests_app; cbn [requests flat_map Datatypes.app]; rewrite app_nil_r.
      + rewrite Eb. auto.
      + cbn [c_wbuf c_dec c_enc]. split; [|auto]. intros HA. destruct (H1 HA) as [L G]. split; [|exact G]. unfold lenZ in *. rewrite skipn_length. lia.
      + cbn [set_state c_wbuf c_dec c_enc]. rewrite ?Eb. auto.
      + destruct e; cbn [set_state c_wbuf c_dec c_enc]; rewrite ?Eb; auto.
  Qed.

  Lemma session_room A r c tr w : session W app cs T others t0 w0 A r c tr w -> room_ok c tr.
  Proof.
    intros H. apply session_any in H.
    assert (QS : forall c tr ev, requests ev = [] -> room_ok c tr -> room_ok c (tr ++ ev)).
    { unfold room_ok, requests_within, answered_within. intros c1 tr1 ev E (H1 & H2 & H3). rewrite requests_app, E, app_nil_r. auto. }
    assert (D : forall c1 tr1 w1 v c2 ev w2, room_ok c1 tr1 -> buffered c1 -> c_wbuf c1 = [] -> c_state c1 <> AwaitingHandshake ->
      dispatch W app cs T c1 w1 = Ret (v, c2, ev, w2) -> room_ok c2 (tr1 ++ ev)).
    { intros c1 tr1 w1 v c2 ev w2 (H1 & H2 & H3) HB Hw Hs E. apply dispatch_room in E as (E1 & E2 & E3); auto.
      unfold room_ok, requests_within, answered_within. rewrite requests_app. split; [|split; [exact E2|apply Forall_app; auto]].
      intros HA. apply Forall_app in HA as [A1 A2]. destruct (H1 A1) as [_ G1]. destruct (E1 A2) as [G2 G3]. auto. }
    eapply (session_rule_buffered W app cs T others t0 w0 any any (fun c tr _ => room_ok c tr) (fun _ c tr _ => room_ok c tr)) in H; auto.
    - destruct r; apply H.
    - split; [intros _; split; [change (0 <= 27 + K); lia|exists []; exact init_rep]|]. split; [|constructor]. split; [exact table_ok_init|exact table_ok_small_init].
    - intros wr c1 tr1 w1 c2 ev wr' HP _ _ _ E. eapply flush_room; eauto.
    - intros now e c1 tr1 w1 HP _ _ _ _. apply QS; [reflexivity|]. destruct e; exact HP.
    - intros. eapply D; eauto.
    - intros. eapply D; eauto.
    - intros c1 tr1 w1 c2 ev w2 HP HB Hw Hs E. apply (D _ _ _ _ _ _ _ HP HB Hw Hs) in E. exact E.
  Qed.

  Lemma session_kept A r c tr w : session W app cs T others t0 w0 A r c tr w -> answered_within cs K tr ->
    lenZ (c_rbuf c) < 65536 /\ lenZ (c_wbuf c) <= 27 + K /\
    table_size (dt_table (c_dec c)) <= 65536 /\ table_size (dt_table (c_enc c)) <= 65536.
  Proof.
    intros H HA. destruct (session_room _ _ _ _ _ H) as (H1 & [H4 _] & _). destruct (buffer_bounded _ _ _ _ _ _ _ _ _ _ _ _ H) as [_ H6].
    destruct (H1 HA) as [H7 (l & E1 & _ & _ & _ & E2)]. destruct H4 as [(_ & _ & _ & _ & E4) E5].
    rewrite E1. unfold MAX_READ_BUFFER_SIZE in H6. repeat split; auto; lia.
  Qed.
  Lemma kept_bound A r c tr w : session W app cs T others t0 w0 A r c tr w -> answered_within cs K tr -> kept_octets c <= 196634 + K.
  Proof. intros H HA. destruct (session_kept _ _ _ _ _ H HA) as (H1 & H2 & H3 & H4). unfold kept_octets. lia. Qed.
End Memory.

(** What an application can answer bounds what it has answered. *)
Lemma handled_within W app cs w0 l w K : answers_ok cs app -> answers_within app K ->
  @handled W eq app w0 l w -> Forall (fun x => answer_within cs K (snd x)) l.
Proof.
  intros Ha [HK Hb] Hh.
  induction Hh as [|l w1 w2 _ IH _|l w1 rq w2 r1 _ IH E|l w1 rq w2 _ IH E|l w1 rq w2 _ IH E]; auto;
    apply Forall_app; (split; [exact IH|]); (constructor; [|constructor]); cbn [snd answer_within].
  - split; [eapply Ha|eapply Hb]; eassumption.
  - split; [|exact HK]. split; [cbn; lia|]. split; [cbn; lia|constructor].
  - exact I.
Qed.
Lemma answers_answered W app cs T others t0 w0 A r c tr w K : answers_ok cs app -> answers_within app K ->
  session W app cs T others t0 w0 A r c tr w -> answered_within cs K tr.
Proof.
  intros Ha Hb. unfold answered_within. induction 1 as [|r c tr w w' _ IH _|r c tr w s r' c' ev w' _ IH _ _ _ E]; [constructor|exact IH|].
  rewrite requests_app. apply Forall_app. split; [exact IH|]. apply process_asks in E. eapply handled_within; eassumption.
Qed.

(** ** The server *)
Lemma sum_bound {A} (f : A -> Z) B l : Forall (fun x => f x <= B) l -> fold_right Z.add 0 (map f l) <= lenZ l * B.
Proof. induction 1 as [|x l H _ IH]; [cbn; lia|]. cbn [map fold_right]. rewrite lenZ_cons. lia. Qed.
Lemma server_kept linux listener W app cs T k0 w0 ok A pending s K : setting listener k0 -> is_tree T -> 783 <= K ->
  reached linux listener W app cs T k0 w0 ok A pending s ->
  (forall fd e, conn_at W s fd e -> answered_within cs K (e_trace e)) ->
  fold_right Z.add 0 (map (fun x => kept_octets (e_conn (snd x))) (sv_conns W s)) <= 128 * (196634 + K).
Proof.
  intros [H1 H2] HT HK H HA. destruct (reached_good _ _ _ _ _ _ _ _ H1 H2 _ _ _ _ H) as (G & _).
  destruct (g_lives _ _ _ _ _ _ _ _ _ G) as [L1 _]. destruct (g_limit _ _ _ _ _ _ _ _ _ G) as (N1 & N2 & _).
  assert (B : Forall (fun x => kept_octets (e_conn (snd x)) <= 196634 + K) (sv_conns W s)).
  { apply Forall_forall. intros [fd e] Hin. apply (mget_entry _ N2) in Hin. cbn [snd].
    eapply kept_bound; [exact HT|exact HK|exact (L1 fd e Hin)|exact (HA fd e Hin)]. }
  apply sum_bound in B. nia.
Qed.
