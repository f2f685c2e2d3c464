(** Every processing call returns; when it can be undefined. *)
From Verif Require Import Base BaseLemmas SpecFrames SpecHpackEnc IntCodec IntProofs Huffman HuffmanProofs DynTable
  DynTableProofs HpackDec HpackDecProofs HpackEnc HpackEncProofs Frames FramesProofs Http Conn SpecConn ConnLemmas
  ConnRule ConnBasic.

(** ** Decimal numerals *)
Definition value_of (s : bytes) : Z := fold_left (fun v d => 10 * v + (d - 48)) s 0.

Lemma fold_value s : forall v, fold_left (fun v d => 10 * v + (d - 48)) s v = v * 10 ^ lenZ s + value_of s.
Proof.
  unfold value_of. induction s as [|d s IH]; intros v; [cbn; lia|]. cbn [fold_left]. rewrite IH, (IH (10 * 0 + _)).
  rewrite lenZ_cons, Z.pow_add_r by (pose proof (lenZ_nonneg s); lia). change (10 ^ 1) with 10. lia.
Qed.

Lemma to_digits_spec fuel : forall n acc, 0 <= n < 2 ^ Z.of_nat fuel -> exists s,
  to_digits fuel n acc = s ++ acc /\ Forall (fun d => 48 <= d <= 57) s /\ value_of s = n /\
  (length s <= fuel)%nat /\
  (n <> 0 -> match s with [] => False | d :: _ => d <> 48 end) /\ ((0 < fuel)%nat -> n = 0 -> s = [48]).
Proof.
  induction fuel as [|f IH]; intros n acc H.
  - exists []. change (2 ^ Z.of_nat 0) with 1 in H. assert (n = 0) as -> by lia. repeat split; auto; lia.
  - cbn [to_digits]. destruct (n <? 10) eqn:E.
    + exists [48 + n mod 10]. rewrite (Z.mod_small n) by lia. split; [reflexivity|]. split; [constructor; [lia|constructor]|].
      split; [unfold value_of; cbn [fold_left]; lia|]. split; [cbn [length]; lia|]. split; [lia|].
      intros _ ->. reflexivity.
    + rewrite Nat2Z.inj_succ, Z.pow_succ_r in H by lia.
      destruct (IH (n / 10) (48 + n mod 10 :: acc)) as (s & -> & Hs & Hv & Hl & Hz & _).
      { split; [lia|]. apply Z.div_lt_upper_bound; lia. }
      exists (s ++ [48 + n mod 10]). repeat split.
      * now rewrite <- app_assoc.
      * apply Forall_app. split; auto. constructor; [lia|constructor].
      * unfold value_of in *. rewrite fold_left_app. cbn [fold_left]. rewrite Hv. lia.
      * rewrite app_length. cbn. lia.
      * intros _. assert (n / 10 <> 0) as Hq by lia. specialize (Hz Hq). now destruct s.
      * lia.
Qed.

Lemma to_string_spec n : 0 <= n -> decimal (to_string n) n /\ (n < 2 ^ 64 -> lenZ (to_string n) <= 64).
Proof.
  intros H. unfold to_string.
  destruct (to_digits_spec (S (Z.to_nat (Z.log2 n))) n []) as (s & -> & Hs & Hv & Hl & Hz & H0).
  { split; [lia|]. rewrite Nat2Z.inj_succ, Z2Nat.id by apply Z.log2_nonneg.
    destruct (Z.eq_dec n 0) as [->|Hn]; [easy|]. apply Z.log2_spec. lia. }
  rewrite app_nil_r. split; [split; [|split]|]; auto.
  - destruct (Z.eq_dec n 0) as [E|E].
    + rewrite H0 by (auto; lia). easy.
    + specialize (Hz E). destruct s; [easy|]. intros ->. easy.
  - intros Hn. assert (Z.log2 n <= 63); [|unfold lenZ; lia].
    destruct (Z.eq_dec n 0) as [->|E]; [easy|]. apply Z.lt_succ_r. apply Z.log2_lt_pow2; [lia|exact Hn].
Qed.

Lemma to_string_ok cs n : 0 <= n < 2 ^ 64 -> string_ok cs (to_string n).
Proof.
  intros H. destruct (to_string_spec n ltac:(lia)) as [(Hd & _) Hl]. specialize (Hl ltac:(lia)).
  split; [|split].
  - eapply Forall_impl; [|exact Hd]. unfold is_byte. intros a. cbn. lia.
  - change (2 ^ 30) with 1073741824. lia.
  - intros _. right. eapply Forall_impl; [|exact Hd]. cbn. lia.
Qed.

(** ** The header fields of a response can be written *)
Lemma complete_ok cs r : answer_ok cs r -> Forall (header_ok cs) (rs_headers (complete_response r)).
Proof.
  intros (Hs & Hb & Hh). unfold complete_response. cbn [rs_headers].
  assert (A : forall s, forallb (fun c => (0 <=? c) && (c <? 128)) s = true -> lenZ s < 100 -> string_ok cs s).
  { intros s Hf Hl. rewrite forallb_forall in Hf. split; [|split].
    - apply Forall_forall. intros x Hx. specialize (Hf x Hx). unfold is_byte. lia.
    - change (2 ^ 30) with 1073741824. lia.
    - intros _. right. apply Forall_forall. intros x Hx. specialize (Hf x Hx). lia. }
  constructor; [split; [apply A; reflexivity|apply to_string_ok]; change (2 ^ 16) with 65536 in Hs; change (2 ^ 64) with 18446744073709551616; cbn [h_value]; lia|].
  apply Forall_app. split; [exact Hh|]. apply Forall_app. split.
  - destruct (rs_body r) eqn:E; constructor; [|constructor].
    split; [apply A; reflexivity|]. cbn [h_value]. apply to_string_ok. pose proof (lenZ_nonneg (rs_body r)). rewrite <- E in *. lia.
  - constructor; [split; apply A; reflexivity|]. constructor; [split; apply A; reflexivity|constructor].
Qed.

(** ** The encoder never runs out of fuel or throws *)
Lemma int_encode_ret n : exists b r, int_encode (u32 n) 7 = Ret (b :: r).
Proof.
  destruct (int_encode_spec 7 (u32 n)) as (b & r & -> & _); [lia| |eauto].
  unfold u32. change (2 ^ 32) with 4294967296. apply Z.mod_pos_bound. lia.
Qed.

Definition ret_or_undef {A} (x : out A) : Prop := (exists a, x = Ret a) \/ x = Undef.

Lemma rou_bind {A B} (x : out A) (f : A -> out B) : ret_or_undef x -> (forall a, ret_or_undef (f a)) ->
  ret_or_undef (obind x f).
Proof. intros [(a & ->)| ->] Hf; cbn; auto. now right. Qed.
Lemma rou_ret {A} (a : A) : ret_or_undef (Ret a).
Proof. left. eauto. Qed.
Lemma rou_undef {A} : @ret_or_undef A Undef.
Proof. now right. Qed.
#[local] Hint Resolve rou_ret rou_undef : rou.

Lemma huffman_write_rou cs s : forall bw, ret_or_undef (huffman_write cs s bw).
Proof.
  induction s as [|c s IH]; intros bw; cbn [huffman_write]; auto with rou.
  apply rou_bind; [|intros []; auto]. unfold huffman_code_of_char.
  destruct (_ <? _); auto with rou. destruct (nth_error _ _); auto with rou.
Qed.

Lemma write_string_rou cs s : ret_or_undef (write_length_and_string cs s).
Proof.
  unfold write_length_and_string, huffman_encode. destruct (_ >? _).
  - apply rou_bind; [apply rou_bind; [apply huffman_write_rou|auto with rou]|]. intros p.
    destruct (int_encode_ret (lenZ p)) as (b & r & ->). cbn. auto with rou.
  - destruct (int_encode_ret (lenZ s)) as (b & r & ->). cbn. auto with rou.
Qed.

Lemma evict_rou x m l : forall s, ret_or_undef (evict x m l s).
Proof. induction l as [|h l IH]; intros s; cbn [evict]; destruct (_ >? _); auto with rou. Qed.

Lemma dt_insert_rou t h : ret_or_undef (dt_insert t h).
Proof.
  unfold dt_insert. destruct (_ >? _); auto with rou. apply rou_bind; [apply evict_rou|].
  intros []. auto with rou.
Qed.

Lemma hpack_encode_rou cs hs : forall t, ret_or_undef (hpack_encode cs t hs).
Proof.
  induction hs as [|h hs IH]; intros t; cbn [hpack_encode]; auto with rou.
  apply rou_bind.
  - unfold encode_header.
    repeat match goal with |- context [match ?e with Some _ => _ | None => _ end] => destruct e end; auto with rou;
      repeat (apply rou_bind; [apply write_string_rou || apply dt_insert_rou|intros]; auto with rou).
  - intros [b t1]. apply rou_bind; [apply IH|]. intros []. auto with rou.
Qed.

(** ** write_data_response always returns *)
Lemma write_data_ret fuel : forall stream body, (length body <= fuel)%nat ->
  exists o, write_data_response fuel stream body = Ret o.
Proof.
  induction fuel as [|f IH]; intros stream body H.
  - destruct body; [|cbn in H; lia]. cbn. eauto.
  - destruct body as [|b body]; cbn [write_data_response]; [eauto|].
    unfold MAX_FRAME_SIZE. set (n := Z.min _ _).
    assert (1 <= n <= lenZ (b :: body)).
    { subst n. rewrite lenZ_cons. pose proof (lenZ_nonneg body). lia. }
    destruct (IH stream (skipn (Z.to_nat n) (b :: body))) as (o & ->).
    { rewrite skipn_length. unfold lenZ in *. cbn [length] in *. lia. }
    cbn [obind]. eauto.
Qed.

(** A box around [huffman_tree = Ret T], which tactics must not evaluate. *)
Inductive is_tree (T : tree) : Prop := is_tree_intro (_ : huffman_tree = Ret T).
Lemma is_tree_unique T : is_tree T -> T = the_tree.
Proof. intros [H]. now apply tree_unique. Qed.
Lemma is_tree_bounds T t data res t' : is_tree T -> table_ok t -> all_bytes data ->
  hpack_decode T t data = Ret (res, t') -> table_ok t'.
Proof. intros [H]. now apply hpack_decode_table_bounds. Qed.

Section Term.
  Variable W : Type.
  Variable app : request -> W -> W * app_answer.
  Variable cs : bool.
  Variable T : tree.
  Hypothesis HT : is_tree T.

  Definition enc_ok (e : dyn_table) : Prop := exists l, dt_rep e l 65536.

  (** Frames on which the model is undefined. *)
  Definition bad_frame (d : dyn_table) (f : frame) : Prop :=
    (f_type f = 8 /\ lenZ (f_payload f) < 4) \/
    (f_type f = 1 /\ has_flag f 32 = true /\ lenZ (f_payload f) < 5) \/
    (f_type f = 1 /\ exists b, headers_block f = Ret b /\ hpack_decode T d b = Undef).

  Lemma headers_block_bytes f b : all_bytes (f_payload f) -> headers_block f = Ret b -> all_bytes b.
  Proof.
    intros H. unfold headers_block, subspan_from. destruct (has_flag f 32).
    - destruct (_ <? _)%nat; intros E; [easy|]. assert (b = skipn 5 (f_payload f)) as -> by congruence.
      now apply all_bytes_skipn.
    - now intros [= <-].
  Qed.

  Lemma process_frame_rou f d e w : table_ok d -> all_bytes (f_payload f) ->
    ret_or_undef (process_frame W app cs T f d e w).
  Proof.
    intros Hd Hp. unfold process_frame.
    destruct (_ =? _).
    { destruct (has_flag f 1); auto with rou.
      destruct (read_settings_spec f Hp) as [(_ & es & -> & _)|(_ & ->)]; cbn; auto with rou. }
    destruct (_ =? _).
    { assert (ret_or_undef (headers_block f)) as Hh.
      { unfold headers_block, subspan_from. destruct (has_flag _ _); auto with rou. destruct (_ <? _)%nat; auto with rou. }
      destruct Hh as [(b & Eb)|Eb]; rewrite Eb; cbn [obind]; auto with rou.
      pose proof (headers_block_bytes f b Hp Eb) as Hb.
      pose proof (is_tree_unique _ HT). subst T.
      destruct (hpack_decode_outcome d b Hd Hb)
        as [(hs' & t2 & -> & Ht' & _)|(r1 & r2 & hs' & t2 & _ & _ & _ & _ & [(-> & _)|(-> & _)])]; auto with rou.
      destruct (process_request W app hs' w) as [[w1 [rs|]] ev]; auto with rou.
      destruct (hpack_encode_rou cs (rs_headers rs) e) as [([b' e'] & ->)| ->]; auto with rou.
      destruct (write_data_ret (length (rs_body rs)) (f_stream f) (rs_body rs)) as (o & ->); [lia|]. cbn. auto with rou. }
    destruct (_ =? _).
    { apply rou_bind; auto with rou. unfold read_window_update, subspan_first. destruct (_ <? _)%nat; cbn [obind]; auto with rou.
      destruct (firstn 4 (f_payload f)) as [|? [|? [|? [|? []]]]]; cbn [obind window_update_parse]; auto with rou. }
    destruct (_ =? _); auto with rou.
  Qed.

  Lemma process_request_ok hs w w' rs ev : answers_ok cs app ->
    process_request W app hs w = (w', Some rs, ev) -> Forall (header_ok cs) (rs_headers rs).
  Proof.
    intros Ha E. apply process_request_inv in E
      as [(_ & _ & [= ->] & _)|(p & m & a & _ & _ & Eapp & [(_ & ? & _)|(r & Hr & [= ->] & _)])]; try easy.
    - constructor.
    - apply complete_ok. destruct Hr as [->|[_ ->]]; [eapply Ha; eauto|].
      repeat split; cbn; try lia. constructor.
  Qed.

  Lemma process_frame_undef f d e w : table_ok d -> enc_ok e -> all_bytes (f_payload f) -> answers_ok cs app ->
    process_frame W app cs T f d e w = Undef -> bad_frame d f.
  Proof.
    intros Hd (l & He) Hp Ha. unfold process_frame, bad_frame.
    destruct (f_type f =? FRAME_TYPE_SETTINGS).
    { destruct (has_flag f 1); [discriminate|].
      destruct (read_settings_spec f Hp) as [(_ & es & -> & _)|(_ & ->)]; discriminate. }
    destruct (f_type f =? FRAME_TYPE_HEADERS) eqn:E1.
    { unfold FRAME_TYPE_HEADERS in E1. assert (f_type f = 1) as Et by lia.
      destruct (headers_block f) as [b| | |] eqn:Eb; cbn [obind]; try discriminate.
      2: { intros _. right; left. split; auto. pose proof (headers_block_defined f) as D. rewrite Eb in D.
           destruct (has_flag f 32); [|exfalso; apply D; [discriminate|reflexivity]]. split; auto.
           destruct (Z_lt_le_dec (lenZ (f_payload f)) 5); auto. exfalso. apply D; auto. }
      destruct (hpack_decode T d b) as [[[hs|er] d']| | |] eqn:Ed; try discriminate.
      2: { intros _. do 2 right. split; auto. eauto. }
      destruct (process_request W app hs w) as [[w1 [rs|]] ev] eqn:Er; [|discriminate].
      destruct (hpack_encode_defined cs 65536 _ (process_request_ok _ _ _ _ _ Ha Er) e l He) as (b' & e' & l' & -> & _).
      destruct (write_data_ret (length (rs_body rs)) (f_stream f) (rs_body rs)) as (o & ->); [lia|]. discriminate. }
    destruct (f_type f =? FRAME_TYPE_WINDOW_UPDATE) eqn:E8.
    { unfold FRAME_TYPE_WINDOW_UPDATE in E8. intros E. left. split; [lia|].
      pose proof (read_window_update_defined f) as D.
      destruct (read_window_update f) as [x| | |]; try discriminate.
      destruct (Z_lt_le_dec (lenZ (f_payload f)) 4); auto. exfalso. apply D; auto. }
    destruct (f_type f =? FRAME_TYPE_GOAWAY); discriminate.
  Qed.

  Lemma process_frame_tables f d e w fe d' e' w' ev : table_ok d -> all_bytes (f_payload f) ->
    process_frame W app cs T f d e w = Ret (fe, d', e', w', ev) ->
    table_ok d' /\ (answers_ok cs app -> enc_ok e -> enc_ok e').
  Proof.
    intros Hd Hp E. apply process_frame_inv in E.
    destruct E as [H|[H|[H|[H|[H|[H|H]]]]]]; try (decompose [and] H; subst; auto; fail).
    destruct H as (_ & b & Eb & [H|[(er & H)|(hs & resp & evr & Ed & Er & H)]]).
    - decompose [and] H; subst; auto.
    - destruct H as (Ed & _ & -> & _). split; auto.
      eapply is_tree_bounds; [exact HT|exact Hd| |exact Ed]; eauto using headers_block_bytes.
    - split; [eapply is_tree_bounds; [exact HT|exact Hd| |exact Ed]; eauto using headers_block_bytes|].
      intros Ha (l & He). destruct H as [(_ & _ & -> & _)|(rs & -> & [(_ & _ & -> & _)|(b' & data & Ee & _)])].
      + now exists l.
      + now exists l.
      + destruct (hpack_encode_defined cs 65536 _ (process_request_ok _ _ _ _ _ Ha Er) e l He) as (b2 & e2 & l2 & Ee2 & R).
        rewrite Ee in Ee2. injection Ee2 as _ <-. now exists l2.
  Qed.

  (** Tables along a session. *)
  Definition tables_ok (c : conn) : Prop :=
    table_ok (c_dec c) /\ (answers_ok cs app -> enc_ok (c_enc c)).

  Lemma chunk_bytes o f : chunk o f -> all_bytes (f_payload f).
  Proof. intros (_ & Hb & _ & -> & _). now apply all_bytes_skipn. Qed.

  Lemma try_read_frame_tables c w v c' ev w' : buffered c -> tables_ok c ->
    try_read_frame W app cs T c w = Ret (v, c', ev, w') -> tables_ok c'.
  Proof.
    intros [Hb _] [Hd He] E. apply try_read_frame_inv in E; auto.
    destruct E as [(_ & -> & _)|[(_ & -> & _)|(o & rest & f & fe & d & e & Er & Hc & Ep & Hfe)]].
    - now split.
    - now split.
    - apply process_frame_tables in Ep as [H1 H2]; eauto using chunk_bytes.
      destruct fe; destruct Hfe as [_ ->]; split; cbn [c_dec c_enc]; auto.
  Qed.

  Lemma dispatch_tables c w v c' ev w' : buffered c -> tables_ok c -> c_state c <> AwaitingHandshake ->
    dispatch W app cs T c w = Ret (v, c', ev, w') -> tables_ok c'.
  Proof.
    intros HB HT' Hs E. pose proof HB as [Hb Hl]. apply dispatch_inv in E; auto.
    destruct E as [(_ & _ & _ & -> & _)|[(_ & _ & _ & _ & -> & _)|[(rest & ev2 & _ & Er & _ & E)|
      [(_ & E)|[(_ & _ & -> & _)|[(_ & _ & -> & _)|(_ & _ & -> & _)]]]]]]; auto.
    - apply try_read_frame_tables in E; auto. rewrite Er in *.
      apply all_bytes_app in Hb as [_ Hr]. rewrite lenZ_app in Hl. change (lenZ CLIENT_PREFACE) with 24 in Hl.
      split; cbn [c_rbuf]; auto; lia.
    - now apply try_read_frame_tables in E.
  Qed.

  Lemma flush_tables wr c c' ev wr' : flush_write_buffer wr c = (c', ev, wr') ->
    c_dec c' = c_dec c /\ c_enc c' = c_enc c.
  Proof.
    unfold flush_write_buffer. destruct (c_wbuf c); [now intros [= <- _ _]|].
    destruct wr as [|[now [n|k|e]] wr]; intros [= <- _ _]; try easy. now destruct e.
  Qed.

  Variable others : W -> W -> Prop.
  Variable t0 : Z.
  Variable w0 : W.
  Notation session := (session W app cs T others t0 w0).

  Lemma session_tables A r c tr w : session A r c tr w -> tables_ok c /\ buffered c.
  Proof.
    intros H. apply session_any in H.
    eapply (session_rule_buffered W app cs T others t0 w0 any any (fun c _ _ => tables_ok c) (fun _ c _ _ => tables_ok c)) in H; auto.
    - destruct r; exact H.
    - split; [exact table_ok_init|]. intros _. exists []. exact init_rep.
    - intros wr c1 tr1 w1 c2 ev wr' HP _ _ _ E. apply flush_tables in E as [E1 E2].
      unfold tables_ok. now rewrite E1, E2.
    - intros now e c1 tr1 w1 HP _ _ _ _. destruct e; exact HP.
    - intros. eapply dispatch_tables; eauto.
    - intros. eapply dispatch_tables; eauto.
    - intros c1 tr1 w1 c2 ev w2 HP HB _ Hs E. apply (dispatch_tables _ _ _ _ _ _ HB HP Hs) in E. exact E.
  Qed.

  (** ** Termination *)
  Lemma fill_measure rd : forall c c' ev rd', fill_read_buffer rd c = (c', ev, rd') ->
    (length (c_rbuf c') + script_octets rd' <= length (c_rbuf c) + script_octets rd)%nat.
  Proof.
    induction rd as [|[now [o|e]] rd IH]; intros c c' ev rd' E; cbn [fill_read_buffer] in E.
    - destruct (_ >=? _); injection E as <- _ <-; auto.
    - destruct (_ >=? _); [injection E as <- _ <-; auto|].
      destruct (fill_read_buffer rd _) as [[c2 ev2] rd2] eqn:E2. injection E as <- _ <-.
      apply IH in E2. cbn [c_rbuf] in E2. rewrite app_length in E2. unfold script_octets in *. cbn [flat_map snd].
      rewrite app_length. lia.
    - destruct (_ >=? _); [injection E as <- _ <-; auto|]. injection E as <- _ <-.
      unfold script_octets in *. cbn [flat_map snd Datatypes.app]. destruct e; cbn; lia.
  Qed.

  Definition dead (s : conn_state) : bool :=
    match s with Closing | StProtocolError | ClientClosed => true | _ => false end.
  Definition rounds (c : conn) (rd : list (Z * rd_result)) : nat :=
    if dead (c_state c) then 1 else 2 + length (c_rbuf c) + script_octets rd.

  Lemma try_read_frame_rou c w : buffered c -> tables_ok c ->
    ret_or_undef (try_read_frame W app cs T c w).
  Proof.
    intros [Hb _] [Hd _]. unfold try_read_frame. destruct (_ <? _) eqn:E9; auto with rou.
    destruct (parse_total (c_rbuf c) ltac:(lia) Hb) as (h & -> & _). cbn [obind].
    destruct (_ >? _); auto with rou. destruct (_ <? 9 + _); auto with rou.
    apply rou_bind.
    - apply process_frame_rou; auto. cbn [f_payload]. now apply all_bytes_firstn, all_bytes_skipn.
    - intros [[[[fe d] e] w1] ev]. destruct fe; auto with rou.
  Qed.

  Lemma dispatch_rou c w : buffered c -> tables_ok c -> c_state c <> AwaitingHandshake ->
    ret_or_undef (dispatch W app cs T c w).
  Proof.
    intros HB HT' Hs. unfold dispatch. destruct (c_state c) eqn:Es; auto with rou.
    - unfold read_preface. destruct (_ <? _); auto with rou. destruct (bytes_eqb _ _); auto with rou.
      apply rou_bind; [|intros [[[v c2] ev] w1]; auto with rou].
      apply try_read_frame_rou; auto. destruct HB as [Hb Hl]. split; cbn [c_rbuf discard set_state enqueue].
      + now apply all_bytes_skipn.
      + unfold lenZ in *. rewrite skipn_length. lia.
    - now apply try_read_frame_rou.
    - unfold close. rewrite Es. auto with rou.
  Qed.

  Lemma try_read_frame_measure c w c' ev w' : buffered c -> dead (c_state c) = false ->
    try_read_frame W app cs T c w = Ret (Continue, c', ev, w') ->
    dead (c_state c') = true \/ (length (c_rbuf c') < length (c_rbuf c))%nat.
  Proof.
    intros [Hb _] Hs E. apply try_read_frame_inv in E; auto.
    destruct E as [(? & _)|[(_ & -> & _)|(o & rest & f & fe & d & e & Er & Hc & Ep & Hfe)]]; [easy|now left|].
    destruct Hc as (H9 & _).
    destruct fe; destruct Hfe as [? ->]; try easy; right; cbn [c_rbuf]; rewrite Er, app_length; unfold lenZ in *; lia.
  Qed.

  Lemma dispatch_measure c w c' ev w' : buffered c -> c_state c <> AwaitingHandshake ->
    dispatch W app cs T c w = Ret (Continue, c', ev, w') ->
    dead (c_state c) = false /\ (dead (c_state c') = true \/ (length (c_rbuf c') < length (c_rbuf c))%nat).
  Proof.
    intros HB Hs E. pose proof HB as [Hb Hl]. apply dispatch_inv in E; auto.
    destruct E as [(_ & _ & ? & _)|[(_ & _ & _ & ? & _)|[(rest & ev2 & Es & Er & _ & E)|
      [(Es & E)|[(_ & ? & _)|[(_ & ? & _)|(_ & ? & _)]]]]]]; try easy; rewrite Es; (split; [reflexivity|]).
    - apply try_read_frame_measure in E; auto.
      + cbn [c_rbuf] in E. rewrite Er, app_length. destruct E; [now left|right; lia].
      + rewrite Er in *. apply all_bytes_app in Hb as [_ Hr]. rewrite lenZ_app in Hl.
        change (lenZ CLIENT_PREFACE) with 24 in Hl. split; cbn [c_rbuf]; auto; lia.
    - apply try_read_frame_measure in E; auto. now rewrite Es.
  Qed.

  Lemma fill_dead rd : forall c c' ev rd', fill_read_buffer rd c = (c', ev, rd') ->
    dead (c_state c) = true -> dead (c_state c') = true.
  Proof.
    induction rd as [|[now [o|e]] rd IH]; intros c c' ev rd' E H; cbn [fill_read_buffer] in E.
    - destruct (_ >=? _); injection E as <- _ <-; auto.
    - destruct (_ >=? _); [injection E as <- _ <-; auto|].
      destruct (fill_read_buffer rd _) as [[c2 ev2] rd2] eqn:E2. injection E as <- _ <-.
      apply IH in E2; auto.
    - destruct (_ >=? _); injection E as <- _ <-; auto. now destruct e.
  Qed.

  Lemma flush_dead wr c c' ev wr' : flush_write_buffer wr c = (c', ev, wr') ->
    dead (c_state c) = true -> dead (c_state c') = true.
  Proof.
    unfold flush_write_buffer. destruct (c_wbuf c); [intros [= <- _ _]; auto|].
    destruct wr as [|[now [n|k|e]] wr]; intros [= <- _ _] H; cbn; auto; try easy. destruct e; easy.
  Qed.

  Lemma fill_buffered rd : forall c c' ev rd', Forall rd_ok rd -> buffered c ->
    fill_read_buffer rd c = (c', ev, rd') -> buffered c' /\ c_dec c' = c_dec c /\ c_enc c' = c_enc c.
  Proof.
    induction rd as [|[now [o|e]] rd IH]; intros c c' ev rd' Hok HB E; cbn [fill_read_buffer] in E.
    - destruct (_ >=? _); injection E as <- _ <-; auto.
    - destruct (_ >=? _) eqn:Ef; [injection E as <- _ <-; auto|].
      destruct (fill_read_buffer rd _) as [[c2 ev2] rd2] eqn:E2. injection E as <- _ <-.
      apply Forall_cons_iff in Hok as [[Hb Hl] Hok']. apply IH in E2; auto. destruct HB as [Hb' Hl'].
      unfold TEMP_READ_BUFFER_SIZE, MAX_READ_BUFFER_SIZE in *.
      split; cbn [c_rbuf]; [now apply all_bytes_app|]. rewrite lenZ_app. unfold MAX_READ_BUFFER_SIZE. lia.
    - destruct (_ >=? _); injection E as <- _ <-; auto. now destruct e.
  Qed.

  Lemma loop_returns fuel : forall s c w, buffered c -> tables_ok c -> Forall rd_ok (sc_rd s) ->
    (rounds c (sc_rd s) <= fuel)%nat -> ret_or_undef (internal_process W app cs T fuel s c w).
  Proof.
    induction fuel as [|fuel IH]; intros s c w HB HTb Hrd Hf.
    { unfold rounds in Hf. destruct (dead _) in Hf; cbn in Hf; lia. }
    cbn [internal_process].
    set (H0 := match c_state c with AwaitingHandshake => handle_handshake (sc_hs s) c | _ => _ end).
    assert (HH : (exists r c0 ev hs, H0 = (Some r, c0, ev, hs)) \/
                 (exists c0 ev0 hs, H0 = (None, c0, ev0, hs) /\ c_rbuf c0 = c_rbuf c /\ c_dec c0 = c_dec c /\
                    c_enc c0 = c_enc c /\ dead (c_state c0) = dead (c_state c) /\ c_state c0 <> AwaitingHandshake)).
    { subst H0. destruct (c_state c) eqn:Es;
        try (right; exists c, [], (sc_hs s); rewrite Es; repeat split; auto; easy).
      unfold handle_handshake. destruct (sc_hs s) as [|[now [|[]]] hs'] eqn:Eh;
        try (left; eexists _, _, _, _; reflexivity).
      right. eexists _, _, _. repeat split; auto. cbn. easy. }
    destruct HH as [(r & c0 & ev & hs & ->)|(c0 & ev0 & hs & -> & E1 & E2 & E3 & E4 & Hs0)]; auto with rou.
    assert (HB0 : buffered c0) by (unfold buffered; now rewrite E1).
    assert (HT0 : tables_ok c0) by (unfold tables_ok; now rewrite E2, E3).
    assert (Hf0 : (rounds c0 (sc_rd s) <= S fuel)%nat) by (unfold rounds; now rewrite E4, E1).
    clear E1 E2 E3 E4.
    destruct (flush_write_buffer (sc_wr s) c0) as [[c1 ev1] wr'] eqn:Ef.
    pose proof (flush_rbuf _ _ _ _ _ Ef) as E1. pose proof (flush_tables _ _ _ _ _ Ef) as [E2 E3].
    pose proof (flush_dead _ _ _ _ _ Ef) as E4.
    pose proof (flush_state _ _ _ _ _ Ef Hs0) as Hs1.
    assert (HB1 : buffered c1) by (unfold buffered; now rewrite E1).
    assert (HT1 : tables_ok c1) by (unfold tables_ok; now rewrite E2, E3).
    assert (Hf1 : (rounds c1 (sc_rd s) <= S fuel)%nat).
    { unfold rounds in *. rewrite E1. destruct (dead (c_state c1)); [lia|].
      destruct (dead (c_state c0)); [now specialize (E4 eq_refl)|exact Hf0]. }
    destruct (c_wbuf c1); auto with rou.
    destruct (fill_read_buffer (sc_rd s) c1) as [[c2 ev2] rd'] eqn:Efill.
    pose proof (fill_rest _ _ _ _ _ _ Efill Hrd) as Hrd2.
    destruct (fill_buffered _ _ _ _ _ Hrd HB1 Efill) as (HB2 & E5 & E6).
    pose proof (fill_measure _ _ _ _ _ Efill) as Hm.
    pose proof (fill_dead _ _ _ _ _ Efill) as E7.
    destruct (fill_state _ _ _ _ _ Efill) as [_ Hs2]. specialize (Hs2 Hs1).
    assert (HT2 : tables_ok c2) by (unfold tables_ok; now rewrite E5, E6).
    assert (Hf2 : (rounds c2 rd' <= S fuel)%nat).
    { unfold rounds in *. destruct (dead (c_state c2)); [lia|].
      destruct (dead (c_state c1)); [now specialize (E7 eq_refl)|lia]. }
    destruct (dispatch_rou c2 w HB2 HT2 Hs2) as [([[[v c3] ev3] w3] & Ed)|Ed]; rewrite Ed; cbn [obind]; auto with rou.
    destruct v; auto with rou.
    apply rou_bind; [|intros [[[v4 c4] ev4] w4]; auto with rou].
    apply IH; cbn [sc_rd]; auto.
    - eapply dispatch_buffered; eauto.
    - eapply dispatch_tables; eauto.
    - apply dispatch_measure in Ed as [Hd Hd']; auto. unfold rounds in *. rewrite Hd in Hf2.
      destruct (dead (c_state c3)); [lia|]. destruct Hd'; [easy|lia].
  Qed.

  Lemma internal_not_continue fuel : forall s c w c' ev w',
    internal_process W app cs T fuel s c w <> Ret (Continue, c', ev, w').
  Proof.
    induction fuel as [|fuel IH]; intros s c w c' ev w'; [easy|]. cbn [internal_process].
    set (H0 := match c_state c with AwaitingHandshake => handle_handshake (sc_hs s) c | _ => _ end).
    destruct H0 as [[[[r|] c0] ev0] hs']; [easy|].
    destruct (flush_write_buffer _ _) as [[c1 ev1] wr']. destruct (c_wbuf c1); [|easy].
    destruct (fill_read_buffer _ _) as [[c2 ev2] rd'].
    destruct (dispatch W app cs T c2 w) as [[[[v c3] ev3] w3]| | |]; cbn [obind]; try easy.
    destruct v; try easy.
    destruct (internal_process W app cs T fuel _ c3 w3) as [[[[v4 c4] ev4] w4]| | |] eqn:E; cbn [obind]; try easy.
    intros [= -> _ _ _]. now apply IH in E.
  Qed.

  Lemma process_returns A r c tr w s : session A r c tr w -> scripts_ok s ->
    ret_or_undef (process W app cs T s c w).
  Proof.
    intros H Hok. apply session_tables in H as [Ht Hb]. unfold process.
    destruct (loop_returns (3 + length (c_rbuf c) + script_octets (sc_rd s)) s c w Hb Ht Hok) as [([[[v c1] ev] w1] & E)|E].
    - unfold rounds. destruct (dead _); lia.
    - rewrite E. cbn [obind]. destruct v; auto with rou. now apply internal_not_continue in E.
    - rewrite E. now right.
  Qed.
End Term.
