(** The reasons given for refused header blocks (Messages.v) are those of SpecReasons.v. *)
From Verif Require Import FileSys FilesServe Base BaseLemmas SpecInt IntCodec IntProofs SpecHuffman Huffman HuffmanProofs
  SpecTable DynTable DynTableProofs StaticTable SpecHpack HpackLemmas HpackDec HpackDecProofs SpecConn Http Conn ConnTerm AccessLog Messages MessagesProofs SpecReasons.

Lemma to_string_decimal n : 0 <= n -> decimal (to_string n) n.
Proof. intros H. now apply to_string_spec. Qed.
Lemma to_string_limits : to_string 4096 = str "4096" /\ to_string 65536 = str "65536".
Proof. split; reflexivity. Qed.

(** ** Padding *)
Lemma messages_walk_leaf root bits : forall cur s rest pos, bits <> [] ->
  walk cur bits = Some (Node Null Null (Some s)) ->
  huffman_messages root cur (bits ++ rest) pos = huffman_messages root root rest (pos + lenZ bits).
Proof.
  induction bits as [|b bits IH]; intros cur s rest pos Hne H; [easy|].
  cbn [walk] in H. destruct cur as [|l r [x|]]; try easy.
  rewrite lenZ_cons. replace (pos + (1 + lenZ bits)) with (pos + 1 + lenZ bits) by lia.
  cbn [List.app huffman_messages]. destruct bits as [|b' bits].
  - cbn in H. injection H as H. rewrite lenZ_nil, Z.add_0_r. destruct b; rewrite H; reflexivity.
  - destruct (if b then r else l) as [|l' r' [x|]] eqn:E; try easy.
    rewrite <- (IH (Node l' r' None) s rest (pos + 1)); auto. easy.
Qed.
Lemma messages_walk_null root bits : forall cur rest pos, bits <> [] ->
  walk cur bits = Some Null ->
  huffman_messages root cur (bits ++ rest) pos = padding_messages rest (pos + lenZ bits).
Proof.
  induction bits as [|b bits IH]; intros cur rest pos Hne H; [easy|].
  cbn [walk] in H. destruct cur as [|l r [x|]]; try easy.
  rewrite lenZ_cons. replace (pos + (1 + lenZ bits)) with (pos + 1 + lenZ bits) by lia.
  cbn [List.app huffman_messages]. destruct bits as [|b' bits].
  - cbn in H. injection H as H. rewrite lenZ_nil, Z.add_0_r. destruct b; rewrite H; reflexivity.
  - destruct (if b then r else l) as [|l' r' [x|]] eqn:E; try easy.
    rewrite <- (IH (Node l' r' None) rest (pos + 1)); auto. easy.
Qed.
Lemma messages_codes s : all_bytes s -> forall rest pos,
  huffman_messages the_tree the_tree (huff_bits s ++ rest) pos = huffman_messages the_tree the_tree rest (pos + lenZ (huff_bits s)).
Proof.
  induction s as [|c s IH]; intros Hs rest pos; [cbn [huff_bits flat_map List.app]; now rewrite lenZ_nil, Z.add_0_r|].
  apply all_bytes_cons in Hs as [Hc Hs].
  unfold huff_bits. cbn [flat_map]. rewrite <- app_assoc, lenZ_app.
  rewrite messages_walk_leaf with (s := c).
  - fold (huff_bits s). rewrite IH by auto. now rewrite Z.add_assoc.
  - pose proof (code_bits_length c Hc). intros E. rewrite E in H. cbn in H. lia.
  - now apply walk_code.
Qed.
Lemma padding_said ones more : all_ones ones -> forall pos,
  padding_messages (ones ++ false :: more) pos =
  [err (str "remaining unmatched Huffman code is not padding: (bit pos = " ++ to_string (pos + lenZ ones) ++ str ")")].
Proof.
  induction 1 as [|b ones -> H IH]; intros pos; cbn [List.app padding_messages].
  - now rewrite lenZ_nil, Z.add_0_r.
  - rewrite IH, lenZ_cons. do 4 f_equal. f_equal. lia.
Qed.
Lemma not_ones l : ~ all_ones l -> exists ones more, l = ones ++ false :: more /\ all_ones ones.
Proof.
  induction l as [|[] l IH]; intros H.
  - destruct H. constructor.
  - destruct IH as (ones & more & -> & Ho). { intros A. apply H. now constructor. }
    exists (true :: ones), more. split; [reflexivity|now constructor].
  - exists [], l. split; [reflexivity|constructor].
Qed.
Lemma huffman_reason p : huffman_decode the_tree p = Ret (Error InvalidCode) ->
  exists s ones more, all_bytes s /\ payload_bits p = huff_bits s ++ EOS ++ ones ++ false :: more /\ all_ones ones /\
    huffman_messages the_tree the_tree (bit_reader p) 0 =
      [err (str "remaining unmatched Huffman code is not padding: (bit pos = " ++ to_string (lenZ (huff_bits s ++ EOS ++ ones)) ++ str ")")].
Proof.
  intros E. apply huffman_decode_error in E as (s & rest & Hs & E & H). apply not_ones in H as (ones & more & -> & Ho).
  exists s, ones, more. split; [exact Hs|]. split; [exact E|]. split; [exact Ho|].
  rewrite bit_reader_eq, E, messages_codes, messages_walk_null by (auto; try discriminate; apply walk_EOS).
  rewrite (padding_said _ _ Ho), !lenZ_app. do 4 f_equal. f_equal. lia.
Qed.

(** ** Strings *)
Lemma int_first N b r used v rest : b :: r = used ++ rest -> p_rfc_int SP N used v -> exists ub, used = b :: ub.
Proof. intros E [Hi _]. inversion Hi; subst; cbn in E; injection E; intros; subst; eauto. Qed.
Lemma limit_said n : 4096 < n -> limit_messages n =
  [err (str "Header string length exceeds maximum allowed size (len: " ++ to_string n ++ str ", max: 4096)")].
Proof.
  intros H. unfold limit_messages, string_length_within_limit, MAX_HEADER_STRING_LENGTH. replace (n >? 4096) with true by lia. reflexivity.
Qed.

Lemma string_reason r e rest : all_bytes r -> read_length_and_string the_tree r = Ret (Error e, rest) ->
  exists text, string_fault r text /\ read_length_and_string_messages the_tree r = [err text].
Proof.
  intros Hr. unfold read_length_and_string, read_length_and_string_messages. destruct r as [|b r0].
  { intros _. eexists. split; [apply fault_end|reflexivity]. }
  cbn [peek_byte]. set (r := b :: r0) in *.
  assert (Hbb : is_byte b) by (apply all_bytes_cons in Hr; tauto).
  destruct (int_decode_cases 7 r ltac:(lia) Hr) as [(v & used & r1 & -> & E & Hi)|(e1 & r1 & -> & Hno)].
  2:{ intros _. eexists. split; [apply fault_length; [discriminate|exact Hno]|reflexivity]. }
  destruct (int_first _ _ _ _ _ _ E Hi) as [ub ->].
  assert (Hv : 0 <= v) by (destruct Hi as [Hi _]; apply rfc_int_nonneg in Hi; lia).
  destruct (read_bytes_cases r1 v Hv) as [(d & r2 & -> & Ed & Hld)|(-> & Hlt)].
  2:{ intros _. eexists. split; [rewrite E; now apply (fault_short _ v)|reflexivity]. }
  rewrite string_at_flag by exact Hbb. unfold read_string, read_string_messages. rewrite E, Ed.
  destruct (b <? 128) eqn:Eb; cbn [negb].
  - unfold string_length_within_limit, MAX_HEADER_STRING_LENGTH. destruct (v >? 4096) eqn:E4; cbn [negb obind]; [|discriminate].
    intros _. eexists. rewrite limit_said by lia. split; [|reflexivity].
    apply fault_long; rewrite ?Hld; auto; try lia. apply to_string_decimal. lia.
  - unfold decode_huffman_string. destruct (huffman_decode_total d) as [(s & Es)|Es]; rewrite Es; cbn [obind].
    + pose proof (proj1 (huffman_decode_val d s) Es) as [Hs Hlen].
      unfold string_length_within_limit, MAX_HEADER_STRING_LENGTH. destruct (lenZ s >? 4096) eqn:E4; cbn [negb obind]; [|discriminate].
      intros _. unfold huffman_decode in Es. pose proof (huffman_fits _ _ _ _ 0 _ Es) as Hm. cbn beta iota in Hm. rewrite Hm. cbn [List.app].
      rewrite limit_said by lia. eexists. split; [|reflexivity].
      apply (fault_long_decoded b ub d s r2 (to_string (lenZ s))); rewrite ?Hld; auto; try lia. apply to_string_decimal. lia.
    + intros _. destruct (huffman_reason _ Es) as (s & ones & more & Hs & Ep & Ho & Em). rewrite Em. eexists. split; [|reflexivity].
      apply (fault_padding b ub d s ones more r2 (to_string (lenZ (huff_bits s ++ EOS ++ ones)))); rewrite ?Hld; auto; try lia. apply to_string_decimal. apply lenZ_nonneg.
Qed.

(** ** Fields *)
Lemma lookup_said what t l m i : dt_rep t l m -> m <= 65536 -> 1 <= i < 2 ^ 32 -> table_entry l i = None ->
  61 + lenZ l < i /\ lookup_messages what t i =
    [err (str "invalid dynamic table index lookup for " ++ what ++ str " (idx: " ++ to_string i ++ str ", sz: " ++ to_string (lenZ l) ++ str ")")].
Proof.
  intros R Hm Hi Ht. apply table_entry_none in Ht. change (2 ^ 32) with 4294967296 in Hi. assert (H : 61 + lenZ l < i) by lia. split; [exact H|].
  destruct R as (<- & _). unfold lookup_messages. cbv zeta. assert (E61 : lenZ STATIC_TABLE = 61) by reflexivity. rewrite E61.
  pose proof (lenZ_nonneg (dt_table t)).
  replace (u64 (i - 1)) with (i - 1) by (unfold u64; lia). replace (i - 1 <? 61) with false by lia.
  replace (u64 (i - 1 - 61)) with (i - 62) by (unfold u64; lia). unfold dt_count. replace (i - 62 >=? lenZ (dt_table t)) with true by lia. reflexivity.
Qed.
Lemma small_int N used v : 1 <= N <= 8 -> p_rfc_int SP N used v -> 0 <= v < 2 ^ 32.
Proof. intros HN [Hi [_ Hv]]. apply rfc_int_nonneg in Hi; [lia|lia]. Qed.

Definition refused {A B} (o : out (expected frame_error A * B)) : Prop := forall v b, o <> Ret (Val v, b).

Lemma indexed_reason t l m b r : dt_rep t l m -> m <= 65536 -> all_bytes (b :: r) -> 128 <= b ->
  refused (decode_indexed_field t (b :: r)) ->
  exists text, field_fault l (b :: r) text /\ decode_indexed_field_messages t (b :: r) = [err text].
Proof.
  intros R Hm Hr Hb. unfold refused, decode_indexed_field, decode_indexed_field_messages.
  destruct (int_decode_cases 7 (b :: r) ltac:(lia) Hr) as [(i & used & r1 & -> & E & Hi)|(e & r1 & -> & Hno)].
  2:{ intros _. eexists. split; [now apply fault_index_unread|reflexivity]. }
  destruct (int_first _ _ _ _ _ _ E Hi) as [ub ->]. pose proof (small_int 7 _ _ ltac:(lia) Hi) as Hs. rewrite E.
  destruct (i <? 1) eqn:E1.
  - intros _. assert (i = 0) by lia. subst i. eexists. split; [now apply fault_zero|reflexivity].
  - rewrite (read_indexed_header_spec t l m i R Hm) by lia. cbn [obind]. destruct (table_entry l i) as [h|] eqn:Et.
    + intros H. now destruct (H h r1).
    + intros _. destruct (lookup_said (str "header") t l m i R Hm ltac:(lia) Et) as [Hl ->]. eexists. split; [|reflexivity].
      apply (fault_index _ _ _ _ i (to_string i) (to_string (lenZ l))); auto; apply to_string_decimal; [lia|apply lenZ_nonneg].
Qed.

Lemma literal_reason N t l m b r : literal_prefix b N -> dt_rep t l m -> m <= 65536 -> all_bytes (b :: r) ->
  refused (decode_literal_field the_tree N t (b :: r)) ->
  exists text, field_fault l (b :: r) text /\ decode_literal_field_messages the_tree N t (b :: r) = [err text].
Proof.
  intros HN R Hm Hr. assert (HNN : 1 <= N <= 8) by (destruct HN as [[_ ->]|[_ ->]]; lia).
  unfold refused, decode_literal_field, decode_literal_field_messages.
  destruct (int_decode_cases N (b :: r) HNN Hr) as [(i & used & r1 & -> & E & Hi)|(e & r1 & -> & Hno)].
  2:{ intros _. eexists. split; [now apply (fault_name_unread _ _ _ N)|reflexivity]. }
  destruct (int_first _ _ _ _ _ _ E Hi) as [ub ->]. pose proof (small_int _ _ _ HNN Hi) as Hs.
  assert (Hr1 : all_bytes r1) by (rewrite E in Hr; apply all_bytes_app in Hr; tauto).
  (* the value *)
  assert (V : forall nb n r2, b :: r = (b :: nb) ++ r2 -> rfc_name SP N l (b :: nb) n -> all_bytes r2 ->
    (forall v s, (let! (value, r3) := read_length_and_string the_tree r2 in
       match value with Error _ => Ret (Error ProtocolError, r3) | Val v => Ret (Val (Hdr n v), r3) end) <> Ret (Val v, s)) ->
    exists text, field_fault l (b :: r) text /\ read_length_and_string_messages the_tree r2 = [err text]).
  { intros nb n r2 En Hn Hr2 Href. destruct (read_string_outcome r2 Hr2) as (res & r3 & Es & _). rewrite Es in Href. cbn [obind] in Href.
    destruct res as [v|e]; [now destruct (Href (Hdr n v) r3)|].
    destruct (string_reason _ _ _ Hr2 Es) as (text & Hf & Em). exists text. split; [|exact Em]. rewrite En. eapply fault_value; eauto. }
  destruct (i =? 0) eqn:E0.
  - apply Z.eqb_eq in E0. subst i.
    destruct (read_string_outcome r1 Hr1) as (res & r2 & Es & _ & Hres). rewrite Es. cbn [obind]. destruct res as [n|e].
    + destruct Hres as (sb & Er & Hn). pose proof (read_fits _ _ _ _ Es) as Hm1. cbn [fits] in Hm1. rewrite Hm1. cbn [List.app].
      apply (V (ub ++ sb) n r2).
      * rewrite E, Er. cbn [List.app]. now rewrite app_assoc.
      * change (b :: ub ++ sb) with ((b :: ub) ++ sb). now apply name_literal.
      * rewrite Er in Hr1. apply all_bytes_app in Hr1. tauto.
    + intros _. destruct (string_reason _ _ _ Hr1 Es) as (text & Hf & Em). exists text. rewrite Em. split; [|reflexivity].
      rewrite E. eapply fault_name; eauto.
  - rewrite (read_indexed_header_name_spec t l m i R Hm) by lia. cbn [obind]. destruct (table_entry l i) as [h|] eqn:Et.
    + pose proof (read_indexed_header_name_spec t l m i R Hm ltac:(lia)) as Hh. rewrite Et in Hh.
      pose proof (name_fits _ _ _ Hh) as Hm1. cbn [fits] in Hm1. rewrite Hm1. cbn [List.app].
      apply (V ub (h_name h) r1); auto. eapply name_indexed; eauto. lia.
    + intros _. destruct (lookup_said (str "header name") t l m i R Hm ltac:(lia) Et) as [Hl ->]. eexists. split; [|reflexivity]. rewrite E.
      apply (fault_name_index _ _ N _ _ i (to_string i) (to_string (lenZ l))); auto; apply to_string_decimal; [lia|apply lenZ_nonneg].
Qed.

Lemma update_reason t l m b r : dt_rep t l m -> all_bytes (b :: r) -> 32 <= b < 64 ->
  refused (decode_size_update t (b :: r)) ->
  exists text, field_fault l (b :: r) text /\ decode_size_update_messages (b :: r) = [err text].
Proof.
  intros R Hr Hb. unfold refused, decode_size_update, decode_size_update_messages.
  destruct (int_decode_cases 5 (b :: r) ltac:(lia) Hr) as [(n & used & r1 & -> & E & Hi)|(e & r1 & -> & Hno)].
  2:{ intros _. eexists. split; [now apply fault_update_unread|reflexivity]. }
  destruct (int_first _ _ _ _ _ _ E Hi) as [ub ->]. pose proof (small_int 5 _ _ ltac:(lia) Hi) as Hs. rewrite E.
  unfold HARD_TABLE_SIZE_LIMIT. destruct (n >? 65536) eqn:E1.
  - intros _. eexists. split; [|reflexivity]. apply (fault_update _ _ _ _ n (to_string n)); auto; [lia|]. apply to_string_decimal. lia.
  - destruct (dt_set_max_rep t l m n R) as (t' & -> & R').
    { change (2 ^ 63) with 9223372036854775808. change (2 ^ 32) with 4294967296 in Hs. lia. }
    cbn [obind]. intros H. now destruct (H t' r1).
Qed.

(** ** Blocks *)
Lemma loop_reason fuel : forall t l m r hdrs,
  dt_rep t l m -> m <= 65536 -> all_bytes r -> (length r <= fuel)%nat -> refused (decode_loop the_tree fuel t r hdrs) ->
  exists r1 r2 hs l' m' text, r = r1 ++ r2 /\ rfc_block SP (l, m) r1 hs (l', m') /\ field_fault l' r2 text /\
    decode_loop_messages the_tree fuel t r = [err text].
Proof.
  induction fuel as [|fuel IH]; intros t l m r hdrs R Hm Hr Hf Href.
  { destruct r as [|b r]; [|cbn in Hf; lia]. now destruct (Href hdrs t). }
  destruct r as [|b r']; [now destruct (Href hdrs t)|].
  cbn [decode_loop decode_loop_messages] in *. set (r := b :: r') in *.
  assert (Hb : is_byte b) by (apply all_bytes_cons in Hr; tauto).
  (* one representation was read: continue *)
  assert (STEP : forall used rest hs t1 l1 m1 hdrs1, r = used ++ rest ->
     rfc_repr SP (l, m) used hs (l1, m1) -> dt_rep t1 l1 m1 -> m1 <= 65536 ->
     refused (decode_loop the_tree fuel t1 rest hdrs1) ->
     exists r1 r2 hs l' m' text, r = r1 ++ r2 /\ rfc_block SP (l, m) r1 hs (l', m') /\ field_fault l' r2 text /\
       decode_loop_messages the_tree fuel t1 rest = [err text]).
  { intros used rest hs t1 l1 m1 hdrs1 E Hrep R1 Hm1 Href1.
    assert (Hrest : all_bytes rest) by (rewrite E in Hr; apply all_bytes_app in Hr; tauto).
    assert (Hlen : (length rest <= fuel)%nat).
    { destruct (repr_nonempty _ _ _ _ _ Hrep) as (x & y & -> & _).
      apply (f_equal (@length Z)) in E. rewrite app_length in E. cbn [length] in E. lia. }
    destruct (IH t1 l1 m1 rest hdrs1 R1 Hm1 Hrest Hlen Href1) as (r1 & r2 & hs2 & l2 & m2 & text & Er & Hbl & Hff & Em).
    exists (used ++ r1), r2, (hs ++ hs2), l2, m2, text. split; [rewrite E, Er; now rewrite <- app_assoc|].
    split; [econstructor; eauto|auto]. }
  assert (FAIL : forall ms, (exists text, field_fault l r text /\ ms = [err text]) ->
     exists r1 r2 hs l' m' text, r = r1 ++ r2 /\ rfc_block SP (l, m) r1 hs (l', m') /\ field_fault l' r2 text /\ ms ++ [] = [err text]).
  { intros ms (text & Hff & ->). exists [], r, [], l, m, text. split; [reflexivity|]. split; [constructor|auto]. }
  (* a literal field *)
  assert (LIT : forall N, literal_prefix b N ->
    (forall h r1, decode_literal_field the_tree N t r = Ret (Val h, r1) ->
       exists nb vb n v, r = ((b :: nb) ++ vb) ++ r1 /\ h = Hdr n v /\ rfc_name SP N l (b :: nb) n /\ rfc_string SP vb v) /\
    (refused (decode_literal_field the_tree N t r) -> exists text, field_fault l r text /\ decode_literal_field_messages the_tree N t r = [err text])).
  { intros N HN. split; [|now apply (literal_reason N t l m)]. intros h r1 E.
    assert (HN2 : N = 6 \/ N = 4) by (destruct HN as [[_ ->]|[_ ->]]; auto).
    destruct (decode_literal_outcome N t l m r HN2 R Hm Hr) as [(E2 & _)|(_ & res & rest & E2 & _ & Hres)]; rewrite E in E2; [discriminate|].
    injection E2 as <- <-. destruct Hres as (nb & vb & Er & Hn & Hv). destruct (name_nonempty _ _ _ _ _ Hn) as (x & nb' & -> & _).
    assert (x = b) by (cbn in Er; now injection Er). subst x. destruct h as [n v].
    exists nb', vb, n, v. rewrite <- app_assoc. auto 10. }
  destruct (from_byte_cases b Hb) as [(Hc & E)|[(Hc & E)|[(Hc & E)|[(Hc & E)|(Hc & E)]]]]; rewrite E in *.
  - pose proof (indexed_reason t l m b r' R Hm Hr Hc) as K. fold r in K.
    destruct (decode_indexed_outcome t l m r R Hm Hr) as [(D & _)|(_ & res & rest & used & i & D & Er & Hi & Hres)]; rewrite D in *; cbn [obind] in *.
    + apply FAIL, K. intros v x. discriminate.
    + destruct res as [h|e]; [|apply FAIL, K; intros v x; discriminate].
      pose proof (indexed_fits _ _ _ _ D) as Hm1. cbn [fits] in Hm1. rewrite Hm1. cbn [List.app].
      destruct (int_first _ _ _ _ _ _ Er Hi) as [ub ->].
      apply (STEP (b :: ub) rest [h] t l m (hdrs ++ [h])); auto. eapply repr_indexed; eauto. unfold is_byte in Hb. lia.
  - destruct (LIT 6 ltac:(left; auto)) as [K1 K2].
    destruct (decode_literal_field the_tree 6 t r) as [[[h|e] r1]| | |] eqn:D; cbn [obind] in *; try (apply FAIL, K2; intros v x; discriminate).
    pose proof (literal_fits _ _ _ _ _ _ D) as Hm1. cbn [fits] in Hm1. rewrite Hm1. cbn [List.app].
    destruct (K1 _ _ eq_refl) as (nb & vb & n & v & Er & -> & Hn & Hv).
    destruct (dt_insert_rep t l m (Hdr n v) R) as (t2 & Ei & R2).
    { unfold header_sane, entry_size. cbn [h_name h_value]. apply string_small in Hv. change (2 ^ 63) with 9223372036854775808.
      enough (lenZ n <= 65536) by lia. destruct Hn as [ib i h _ _ Ht|ib sb s _ Hs]; [|apply string_small in Hs; lia].
      apply table_entry_in in Ht. apply in_app_or in Ht as [Ht|Ht].
      - pose proof static_small as S. rewrite Forall_forall in S. specialize (S _ Ht). unfold small_header in S. lia.
      - pose proof R as (_ & _ & _ & _ & Hsz). apply table_size_in in Ht. unfold entry_size in Ht. pose proof (lenZ_nonneg (h_value h)). lia. }
    rewrite Ei in *. cbn [obind] in *.
    apply (STEP ((b :: nb) ++ vb) r1 [Hdr n v] t2 (fit m (Hdr n v :: l)) m (hdrs ++ [Hdr n v])); auto. now apply repr_incremental.
  - pose proof (update_reason t l m b r' R Hr Hc) as K. fold r in K.
    destruct (decode_size_update_outcome t l m r R Hr) as (res & rest & used & D & Er & Hres); rewrite D in *; cbn [obind] in *.
    destruct res as [t1|e]; [|apply FAIL, K; intros v x; discriminate].
    pose proof (size_fits _ _ _ _ D) as Hm1. cbn [fits] in Hm1. rewrite Hm1. cbn [List.app].
    destruct Hres as (n & Hi & Hn & R1). destruct (int_first _ _ _ _ _ _ Er Hi) as [ub ->].
    apply (STEP (b :: ub) rest [] t1 (fit n l) n hdrs); auto. apply repr_size_update; auto.
  - destruct (LIT 4 ltac:(right; split; [lia|auto])) as [K1 K2].
    destruct (decode_literal_field the_tree 4 t r) as [[[h|e] r1]| | |] eqn:D; cbn [obind] in *; try (apply FAIL, K2; intros v x; discriminate).
    pose proof (literal_fits _ _ _ _ _ _ D) as Hm1. cbn [fits] in Hm1. rewrite Hm1. cbn [List.app].
    destruct (K1 _ _ eq_refl) as (nb & vb & n & v & Er & -> & Hn & Hv).
    apply (STEP ((b :: nb) ++ vb) r1 [Hdr n v] t l m (hdrs ++ [Hdr n v])); auto. apply repr_literal; auto. lia.
  - destruct (LIT 4 ltac:(right; unfold is_byte in Hb; split; [lia|auto])) as [K1 K2].
    destruct (decode_literal_field the_tree 4 t r) as [[[h|e] r1]| | |] eqn:D; cbn [obind] in *; try (apply FAIL, K2; intros v x; discriminate).
    pose proof (literal_fits _ _ _ _ _ _ D) as Hm1. cbn [fits] in Hm1. rewrite Hm1. cbn [List.app].
    destruct (K1 _ _ eq_refl) as (nb & vb & n & v & Er & -> & Hn & Hv).
    apply (STEP ((b :: nb) ++ vb) r1 [Hdr n v] t l m (hdrs ++ [Hdr n v])); auto. apply repr_literal; auto. unfold is_byte in Hb. lia.
Qed.

(** ** Every such fault is found *)
Lemma int_decode_none N r : 1 <= N <= 8 -> all_bytes r -> ~ int_at N r -> exists e rest, int_decode N r = (Error e, rest).
Proof.
  intros HN Hr H. destruct (int_decode_cases N r HN Hr) as [(v & used & r1 & _ & E & Hi)|(e & r1 & E & _)]; [|eauto].
  destruct H. exists used, r1, v. auto.
Qed.
Lemma read_bytes_at d rest : read_bytes (d ++ rest) (lenZ d) = Some (d, rest).
Proof.
  unfold read_bytes, has_bytes. rewrite lenZ_app. pose proof (lenZ_nonneg rest). replace (lenZ d <=? lenZ d + lenZ rest) with true by lia.
  replace (Z.to_nat (lenZ d)) with (length d) by (unfold lenZ; lia). rewrite firstn_app, skipn_app, firstn_all, skipn_all, Nat.sub_diag. cbn [firstn skipn List.app]. now rewrite app_nil_r.
Qed.
Lemma to_string_is s n : decimal s n -> 0 <= n -> to_string n = s.
Proof. intros H Hn. eapply decimal_unique; [|exact H]. now apply to_string_decimal. Qed.

Lemma string_fault_found r text : string_fault r text -> all_bytes r ->
  (exists e rest, read_length_and_string the_tree r = Ret (Error e, rest)) /\ read_length_and_string_messages the_tree r = [err text].
Proof.
  intros H Hr. unfold read_length_and_string, read_length_and_string_messages.
  destruct H as [|r Hne Hno|ib n rest Hi Hlt|b ib s rest len Hi Hb Hl Hd|b ib p s rest len Hi Hb Hs Hh Hl Hd|b ib p s ones more rest pos Hi Hb Hs Hp Ho Hd].
  - cbn [peek_byte]. split; eauto.
  - destruct r as [|b r]; [easy|]. cbn [peek_byte]. destruct (int_decode_none 7 _ ltac:(lia) Hr Hno) as (e & r1 & ->). split; eauto.
  - destruct ib as [|b ib]; [now destruct Hi as [Hi _]; inversion Hi|]. cbn [List.app peek_byte]. change (b :: ib ++ rest) with ((b :: ib) ++ rest).
    rewrite (int_decode_at 7 _ _ _ ltac:(lia) Hi). unfold read_bytes, has_bytes. replace (n <=? lenZ rest) with false by lia. split; eauto.
  - cbn [List.app peek_byte]. change (b :: ib ++ s ++ rest) with ((b :: ib) ++ s ++ rest). rewrite (int_decode_at 7 _ _ _ ltac:(lia) Hi), read_bytes_at.
    apply all_bytes_cons in Hr as [Hbb _]. rewrite string_at_flag by exact Hbb. replace (b <? 128) with true by lia. cbn [negb].
    unfold read_string, read_string_messages. rewrite limit_said, (to_string_is _ _ Hd) by lia.
    unfold string_length_within_limit, MAX_HEADER_STRING_LENGTH. replace (lenZ s >? 4096) with true by lia. cbn [negb obind]. split; eauto.
  - cbn [List.app peek_byte]. change (b :: ib ++ p ++ rest) with ((b :: ib) ++ p ++ rest). rewrite (int_decode_at 7 _ _ _ ltac:(lia) Hi), read_bytes_at.
    apply all_bytes_cons in Hr as [Hbb _]. rewrite string_at_flag by exact Hbb. replace (b <? 128) with false by lia. cbn [negb].
    assert (E : huffman_decode the_tree p = Ret (Val s)) by (apply huffman_decode_val; auto).
    unfold read_string, read_string_messages, decode_huffman_string. rewrite E. cbn [obind].
    unfold huffman_decode in E. pose proof (huffman_fits _ _ _ _ 0 _ E) as Hm. cbn beta iota in Hm. rewrite Hm. cbn [List.app].
    rewrite limit_said, (to_string_is _ _ Hd) by lia.
    unfold string_length_within_limit, MAX_HEADER_STRING_LENGTH. replace (lenZ s >? 4096) with true by lia. cbn [negb obind]. split; eauto.
  - cbn [List.app peek_byte]. change (b :: ib ++ p ++ rest) with ((b :: ib) ++ p ++ rest). rewrite (int_decode_at 7 _ _ _ ltac:(lia) Hi), read_bytes_at.
    apply all_bytes_cons in Hr as [Hbb _]. rewrite string_at_flag by exact Hbb. replace (b <? 128) with false by lia. cbn [negb].
    assert (E : huffman_decode the_tree p = Ret (Error InvalidCode)).
    { apply huffman_decode_error. exists s, (ones ++ false :: more). split; [exact Hs|]. split; [exact Hp|].
      intros A. apply Forall_app in A as [_ A]. now inversion A. }
    unfold read_string, read_string_messages, decode_huffman_string. rewrite E. cbn [obind].
    rewrite bit_reader_eq, Hp, messages_codes, messages_walk_null by (auto; try discriminate; apply walk_EOS).
    rewrite (padding_said _ _ Ho). replace (0 + lenZ (huff_bits s) + lenZ EOS + lenZ ones) with (lenZ (huff_bits s ++ EOS ++ ones)) by (rewrite !lenZ_app; lia).
    rewrite (to_string_is _ _ Hd) by apply lenZ_nonneg. split; eauto.
Qed.

Lemma read_string_at sb s rest : rfc_string SP sb s -> all_bytes (sb ++ rest) -> read_length_and_string the_tree (sb ++ rest) = Ret (Val s, rest).
Proof.
  intros H Hr. destruct (read_string_outcome _ Hr) as (res & r1 & -> & _ & Hres). destruct res as [s'|e].
  - destruct Hres as (used & E & Hs). destruct (string_det SP server_profile_functional _ _ H _ _ _ _ Hs E) as (_ & <- & <-). reflexivity.
  - destruct Hres as [_ Hno]. now destruct (Hno _ _ _ eq_refl H).
Qed.

Lemma lookup_missing what t l m i idx sz : dt_rep t l m -> m <= 65536 -> 0 <= i < 2 ^ 32 -> 61 + lenZ l < i -> decimal idx i -> decimal sz (lenZ l) ->
  table_entry l i = None /\ 1 <= i /\ lookup_messages what t i =
    [err (str "invalid dynamic table index lookup for " ++ what ++ str " (idx: " ++ idx ++ str ", sz: " ++ sz ++ str ")")].
Proof.
  intros R Hm Hi Hl D1 D2. assert (E : table_entry l i = None) by (apply table_entry_none; lia). pose proof (lenZ_nonneg l).
  destruct (lookup_said what t l m i R Hm ltac:(lia) E) as [_ ->]. rewrite (to_string_is _ _ D1), (to_string_is _ _ D2) by lia. repeat split; auto. lia.
Qed.

Lemma after_name N t l m nb n rest : 1 <= N <= 8 -> dt_rep t l m -> m <= 65536 -> rfc_name SP N l nb n -> all_bytes (nb ++ rest) ->
  decode_literal_field the_tree N t (nb ++ rest) =
    (let! (value, r3) := read_length_and_string the_tree rest in
     match value with Error _ => Ret (Error ProtocolError, r3) | Val v => Ret (Val (Hdr n v), r3) end) /\
  decode_literal_field_messages the_tree N t (nb ++ rest) = read_length_and_string_messages the_tree rest.
Proof.
  intros HN R Hm Hn Hr. unfold decode_literal_field, decode_literal_field_messages.
  destruct Hn as [ib i h Hi Hz Ht|ib sb s Hi Hs].
  - pose proof (small_int N _ _ HN Hi) as Hsm. rewrite (int_decode_at N _ _ _ HN Hi). replace (i =? 0) with false by lia.
    pose proof (read_indexed_header_name_spec t l m i R Hm ltac:(lia)) as E. rewrite Ht in E.
    pose proof (name_fits _ _ _ E) as F. cbn [fits] in F. rewrite E, F. split; reflexivity.
  - rewrite <- app_assoc in *. rewrite (int_decode_at N _ _ _ HN Hi). assert (Hr2 : all_bytes (sb ++ rest)) by (apply all_bytes_app in Hr; tauto).
    pose proof (read_string_at _ _ _ Hs Hr2) as E. pose proof (read_fits _ _ _ _ E) as F. cbn [fits] in F. rewrite E, F. split; reflexivity.
Qed.

Lemma from_byte_literal b N : is_byte b -> literal_prefix b N -> (from_byte b = LiteralIncremental /\ N = 6) \/ ((from_byte b = LiteralNeverIndex \/ from_byte b = LiteralNoIndex) /\ N = 4).
Proof.
  intros Hb [[H ->]|[H ->]]; destruct (from_byte_cases b Hb) as [(Hc & E)|[(Hc & E)|[(Hc & E)|[(Hc & E)|(Hc & E)]]]]; try lia; auto.
Qed.

(** A literal field that cannot be read. *)
Lemma literal_found t b N r text fuel hdrs : is_byte b -> literal_prefix b N ->
  refused (decode_literal_field the_tree N t (b :: r)) -> decode_literal_field_messages the_tree N t (b :: r) = [err text] ->
  refused (decode_loop the_tree (S fuel) t (b :: r) hdrs) /\ decode_loop_messages the_tree (S fuel) t (b :: r) = [err text].
Proof.
  intros Hb HN Hr Hm. cbn [decode_loop decode_loop_messages].
  destruct (from_byte_literal b N Hb HN) as [[-> ->]|[[->| ->] ->]]; rewrite Hm;
    (destruct (decode_literal_field the_tree _ t (b :: r)) as [[[h|e] r1]| | |] eqn:D; cbn [obind]; [now destruct (Hr h r1)|..]);
    rewrite ?app_nil_r; split; auto; intros v x; discriminate.
Qed.

Lemma field_fault_found t l m r text fuel hdrs : dt_rep t l m -> m <= 65536 -> all_bytes r -> field_fault l r text ->
  refused (decode_loop the_tree (S fuel) t r hdrs) /\ decode_loop_messages the_tree (S fuel) t r = [err text].
Proof.
  intros R Hm Hr H.
  assert (B : forall b r, all_bytes (b :: r) -> is_byte b) by (intros b x K; apply all_bytes_cons in K; tauto).
  destruct H as [b r Hb Hno|b ib rest Hb Hi|b ib rest i idx sz Hb Hi Hl D1 D2|b r N HN Hno|b N ib rest i idx sz HN Hi Hl D1 D2|b N ib rest text HN Hi Hs|b N nb n rest text HN Hn Hs|b r Hb Hno|b ib rest n sz Hb Hi Hl D].
  - pose proof (B _ _ Hr) as Hbb. cbn [decode_loop decode_loop_messages].
    destruct (from_byte_cases b Hbb) as [(Hc & ->)|[(Hc & _)|[(Hc & _)|[(Hc & _)|(Hc & _)]]]]; try lia.
    unfold decode_indexed_field, decode_indexed_field_messages. destruct (int_decode_none 7 _ ltac:(lia) Hr Hno) as (e & r1 & ->). cbn [obind]. split; [intros v x; discriminate|reflexivity].
  - pose proof (B _ _ Hr) as Hbb. cbn [List.app decode_loop decode_loop_messages].
    destruct (from_byte_cases b Hbb) as [(Hc & ->)|[(Hc & _)|[(Hc & _)|[(Hc & _)|(Hc & _)]]]]; try lia.
    change (b :: ib ++ rest) with ((b :: ib) ++ rest). unfold decode_indexed_field, decode_indexed_field_messages. rewrite (int_decode_at 7 _ _ _ ltac:(lia) Hi).
    cbn [Z.ltb Z.compare obind]. split; [intros v x; discriminate|reflexivity].
  - pose proof (B _ _ Hr) as Hbb. cbn [List.app decode_loop decode_loop_messages].
    destruct (from_byte_cases b Hbb) as [(Hc & ->)|[(Hc & _)|[(Hc & _)|[(Hc & _)|(Hc & _)]]]]; try lia.
    change (b :: ib ++ rest) with ((b :: ib) ++ rest). unfold decode_indexed_field, decode_indexed_field_messages. rewrite (int_decode_at 7 _ _ _ ltac:(lia) Hi).
    pose proof (small_int 7 _ _ ltac:(lia) Hi) as Hsm. destruct (lookup_missing (str "header") t l m i idx sz R Hm Hsm Hl D1 D2) as (Et & H1 & ->).
    replace (i <? 1) with false by lia. rewrite (read_indexed_header_spec t l m i R Hm) by lia. rewrite Et. cbn [obind]. split; [intros v x; discriminate|reflexivity].
  - apply (literal_found t b N); auto; [eauto|..].
    + unfold refused, decode_literal_field. destruct (int_decode_none N _ ltac:(destruct HN as [[_ ->]|[_ ->]]; lia) Hr Hno) as (e & r1 & ->). intros v x. discriminate.
    + unfold decode_literal_field_messages. destruct (int_decode_none N _ ltac:(destruct HN as [[_ ->]|[_ ->]]; lia) Hr Hno) as (e & r1 & ->). reflexivity.
  - assert (HNN : 1 <= N <= 8) by (destruct HN as [[_ ->]|[_ ->]]; lia).
    pose proof (small_int N _ _ HNN Hi) as Hsm. destruct (lookup_missing (str "header name") t l m i idx sz R Hm Hsm Hl D1 D2) as (Et & H1 & El).
    apply (literal_found t b N (ib ++ rest)); auto; [eapply B; exact Hr|..]; change (b :: ib ++ rest) with ((b :: ib) ++ rest).
    + unfold refused, decode_literal_field. rewrite (int_decode_at _ _ _ _ HNN Hi). replace (i =? 0) with false by lia.
      rewrite (read_indexed_header_name_spec t l m i R Hm), Et by lia. cbn [obind]. intros v x. discriminate.
    + unfold decode_literal_field_messages. rewrite (int_decode_at _ _ _ _ HNN Hi). replace (i =? 0) with false by lia.
      rewrite (read_indexed_header_name_spec t l m i R Hm), Et, El by lia. reflexivity.
  - assert (HNN : 1 <= N <= 8) by (destruct HN as [[_ ->]|[_ ->]]; lia).
    assert (Hrest : all_bytes rest) by (apply all_bytes_app in Hr; tauto).
    destruct (string_fault_found _ _ Hs Hrest) as ((e & r1 & Er) & Em).
    apply (literal_found t b N (ib ++ rest)); auto; [eapply B; exact Hr|..]; change (b :: ib ++ rest) with ((b :: ib) ++ rest).
    + unfold refused, decode_literal_field. rewrite (int_decode_at _ _ _ _ HNN Hi), Er. cbn [Z.eqb obind]. intros v x. discriminate.
    + unfold decode_literal_field_messages. rewrite (int_decode_at _ _ _ _ HNN Hi), Er, Em. reflexivity.
  - assert (HNN : 1 <= N <= 8) by (destruct HN as [[_ ->]|[_ ->]]; lia).
    assert (Hrest : all_bytes rest) by (apply all_bytes_app in Hr; tauto).
    destruct (string_fault_found _ _ Hs Hrest) as ((e & r1 & Er) & Em).
    destruct (after_name N t l m _ n rest HNN R Hm Hn Hr) as [E1 E2].
    apply (literal_found t b N (nb ++ rest)); auto; [eapply B; exact Hr|..]; change (b :: nb ++ rest) with ((b :: nb) ++ rest).
    + unfold refused. rewrite E1, Er. cbn [obind]. intros v x. discriminate.
    + now rewrite E2.
  - pose proof (B _ _ Hr) as Hbb. cbn [decode_loop decode_loop_messages].
    destruct (from_byte_cases b Hbb) as [(Hc & _)|[(Hc & _)|[(Hc & ->)|[(Hc & _)|(Hc & _)]]]]; try lia.
    unfold decode_size_update, decode_size_update_messages. destruct (int_decode_none 5 _ ltac:(lia) Hr Hno) as (e & r1 & ->). cbn [obind]. split; [intros v x; discriminate|reflexivity].
  - pose proof (B _ _ Hr) as Hbb. cbn [List.app decode_loop decode_loop_messages].
    destruct (from_byte_cases b Hbb) as [(Hc & _)|[(Hc & _)|[(Hc & ->)|[(Hc & _)|(Hc & _)]]]]; try lia.
    change (b :: ib ++ rest) with ((b :: ib) ++ rest). unfold decode_size_update, decode_size_update_messages. rewrite (int_decode_at 5 _ _ _ ltac:(lia) Hi).
    unfold HARD_TABLE_SIZE_LIMIT. replace (n >? 65536) with true by lia. rewrite (to_string_is _ _ D) by lia. cbn [obind]. split; [intros v x; discriminate|reflexivity].
Qed.

(** Reading on after a representation. *)
Lemma repr_read t l m used hs l1 m1 rest fuel hdrs : dt_rep t l m -> m <= 65536 -> all_bytes (used ++ rest) ->
  rfc_repr SP (l, m) used hs (l1, m1) -> exists t1, dt_rep t1 l1 m1 /\ m1 <= 65536 /\
    decode_loop the_tree (S fuel) t (used ++ rest) hdrs = decode_loop the_tree fuel t1 rest (hdrs ++ hs) /\
    decode_loop_messages the_tree (S fuel) t (used ++ rest) = decode_loop_messages the_tree fuel t1 rest.
Proof.
  intros R Hm Hr H.
  assert (LIT : forall b N nb n vb v, literal_prefix b N -> rfc_name SP N l (b :: nb) n -> rfc_string SP vb v -> all_bytes (((b :: nb) ++ vb) ++ rest) ->
    decode_literal_field the_tree N t (((b :: nb) ++ vb) ++ rest) = Ret (Val (Hdr n v), rest) /\
    decode_literal_field_messages the_tree N t (((b :: nb) ++ vb) ++ rest) = []).
  { intros b N nb n vb v HN Hn Hv Hall. rewrite <- app_assoc in *. assert (HNN : 1 <= N <= 8) by (destruct HN as [[_ ->]|[_ ->]]; lia).
    destruct (after_name N t l m _ n (vb ++ rest) HNN R Hm Hn Hall) as [E1 E2]. rewrite E1, E2.
    assert (Hall2 : all_bytes (vb ++ rest)) by (apply all_bytes_app in Hall; tauto).
    pose proof (read_string_at _ _ _ Hv Hall2) as E. pose proof (read_fits _ _ _ _ E) as F. cbn [fits] in F. rewrite E, F. split; reflexivity. }
  assert (Hb0 : forall b u, used = b :: u -> is_byte b).
  { intros b u E. destruct (repr_nonempty _ _ _ _ _ H) as (b' & u' & E' & K). rewrite E in E'. now injection E' as -> _. }
  inversion H as [dyn max b rr i h Hb Hi Ht|dyn max b nb n vb v Hb Hn Hv|dyn max b nb n vb v Hb Hn Hv|dyn max b rr n Hb Hi Hl]; subst;
    pose proof (Hb0 _ _ eq_refl) as Hbb.
  - exists t. split; [exact R|]. split; [exact Hm|]. cbn [List.app decode_loop decode_loop_messages].
    destruct (from_byte_cases b Hbb) as [(Hc & ->)|[(Hc & _)|[(Hc & _)|[(Hc & _)|(Hc & _)]]]]; try lia.
    change (b :: rr ++ rest) with ((b :: rr) ++ rest). pose proof (small_int 7 _ _ ltac:(lia) Hi) as Hsm.
    assert (E : decode_indexed_field t ((b :: rr) ++ rest) = Ret (Val h, rest)).
    { unfold decode_indexed_field. rewrite (int_decode_at 7 _ _ _ ltac:(lia) Hi). assert (1 <= i).
      { destruct (Z.eq_dec i 0) as [->|]; [discriminate|lia]. }
      replace (i <? 1) with false by lia. rewrite (read_indexed_header_spec t l1 m1 i R Hm), Ht by lia. reflexivity. }
    pose proof (indexed_fits _ _ _ _ E) as F. cbn [fits] in F. rewrite E, F. split; reflexivity.
  - destruct (LIT b 6 nb n vb v ltac:(left; auto) Hn Hv Hr) as [E F].
    destruct (dt_insert_rep t l m1 (Hdr n v) R) as (t2 & Ei & R2).
    { unfold header_sane, entry_size. cbn [h_name h_value]. apply string_small in Hv. change (2 ^ 63) with 9223372036854775808.
      enough (lenZ n <= 65536) by lia. destruct Hn as [ib i h _ _ Ht|ib sb s _ Hs]; [|apply string_small in Hs; lia].
      apply table_entry_in in Ht. apply in_app_or in Ht as [Ht|Ht].
      - pose proof static_small as S. rewrite Forall_forall in S. specialize (S _ Ht). unfold small_header in S. lia.
      - pose proof R as (_ & _ & _ & _ & Hsz). apply table_size_in in Ht. unfold entry_size in Ht. pose proof (lenZ_nonneg (h_value h)). lia. }
    exists t2. split; [exact R2|]. split; [exact Hm|]. cbn [List.app decode_loop decode_loop_messages] in *.
    destruct (from_byte_cases b Hbb) as [(Hc & _)|[(Hc & ->)|[(Hc & _)|[(Hc & _)|(Hc & _)]]]]; try lia.
    rewrite E, F. cbn [obind]. rewrite Ei. split; reflexivity.
  - destruct (LIT b 4 nb n vb v ltac:(right; auto) Hn Hv Hr) as [E F].
    exists t. split; [exact R|]. split; [exact Hm|]. cbn [List.app decode_loop decode_loop_messages] in *.
    destruct (from_byte_cases b Hbb) as [(Hc & _)|[(Hc & _)|[(Hc & _)|[(Hc & ->)|(Hc & ->)]]]]; try lia;
      rewrite E, F; split; reflexivity.
  - pose proof (small_int 5 _ _ ltac:(lia) Hi) as Hsm. cbn in Hl.
    destruct (dt_set_max_rep t l m m1 R) as (t' & Es & R').
    { change (2 ^ 63) with 9223372036854775808. change (2 ^ 32) with 4294967296 in Hsm. lia. }
    exists t'. split; [exact R'|]. split; [exact Hl|]. cbn [List.app decode_loop decode_loop_messages].
    destruct (from_byte_cases b Hbb) as [(Hc & _)|[(Hc & _)|[(Hc & ->)|[(Hc & _)|(Hc & _)]]]]; try lia.
    change (b :: rr ++ rest) with ((b :: rr) ++ rest).
    assert (E : decode_size_update t ((b :: rr) ++ rest) = Ret (Val t', rest)).
    { unfold decode_size_update. rewrite (int_decode_at 5 _ _ _ ltac:(lia) Hi). unfold HARD_TABLE_SIZE_LIMIT. replace (m1 >? 65536) with false by lia. now rewrite Es. }
    pose proof (size_fits _ _ _ _ E) as F. cbn [fits] in F. rewrite E, F, app_nil_r. split; reflexivity.
Qed.

Lemma block_reason st r1 hs st' : rfc_block SP st r1 hs st' -> forall t r2 text fuel hdrs, dt_rep t (fst st) (snd st) -> snd st <= 65536 ->
  all_bytes (r1 ++ r2) -> field_fault (fst st') r2 text -> (length (r1 ++ r2) <= fuel)%nat ->
  refused (decode_loop the_tree fuel t (r1 ++ r2) hdrs) /\ decode_loop_messages the_tree fuel t (r1 ++ r2) = [err text].
Proof.
  induction 1 as [st|[l m] bs hs [l1 m1] bs2 hs2 st2 Hrep Hbl IH]; intros t r2 text fuel hdrs R Hm Hr Hf Hl; cbn [fst snd] in *.
  - cbn [List.app] in *. destruct fuel as [|fuel].
    + destruct r2; [|cbn in Hl; lia]. inversion Hf; discriminate.
    + eapply field_fault_found; eauto.
  - rewrite <- app_assoc in *. destruct fuel as [|fuel].
    { destruct (repr_nonempty _ _ _ _ _ Hrep) as (x & y & -> & _). cbn in Hl. lia. }
    destruct (repr_read t l m bs hs l1 m1 (bs2 ++ r2) fuel hdrs R Hm Hr Hrep) as (t1 & R1 & Hm1 & E1 & E2). rewrite E1, E2. apply IH; auto.
    + apply all_bytes_app in Hr. tauto.
    + destruct (repr_nonempty _ _ _ _ _ Hrep) as (x & y & -> & _). rewrite app_length in Hl. cbn [length] in Hl. lia.
Qed.

(** ** For the property file *)
Lemma refused_reason T t data : huffman_tree = Ret T -> reachable_table T t -> all_bytes data ->
  (forall hs t', hpack_decode T t data <> Ret (Val hs, t')) ->
  exists r1 r2 hs l m text, data = r1 ++ r2 /\ rfc_block SP (dt_table t, dt_max t) r1 hs (l, m) /\ field_fault l r2 text /\
    decode_messages T t data = [Msg LErr text].
Proof.
  intros HT Hre Hd H. destruct (reachable_ok T t HT Hre) as [R Hm]. apply tree_unique in HT. subst T.
  exact (loop_reason (length data) t _ _ data [] R Hm Hd (le_n _) H).
Qed.
Lemma reason_refused T t r1 r2 hs l m text : huffman_tree = Ret T -> reachable_table T t -> all_bytes (r1 ++ r2) ->
  rfc_block SP (dt_table t, dt_max t) r1 hs (l, m) -> field_fault l r2 text ->
  (forall hs t', hpack_decode T t (r1 ++ r2) <> Ret (Val hs, t')) /\ decode_messages T t (r1 ++ r2) = [Msg LErr text].
Proof.
  intros HT Hre Hd Hb Hf. destruct (reachable_ok T t HT Hre) as [R Hm]. apply tree_unique in HT. subst T.
  exact (block_reason _ _ _ _ Hb t r2 text (length (r1 ++ r2)) [] R Hm Hd Hf (le_n _)).
Qed.
