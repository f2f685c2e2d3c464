(** How long an encoded header block can be. *)
From Verif Require Import Base BaseLemmas SpecHpack SpecHpackEnc IntCodec IntProofs Huffman HuffmanProofs DynTable HpackEnc HpackEncProofs SpecConn.

Lemma write_string_size cs s bs : string_ok cs s -> write_length_and_string cs s = Ret bs -> lenZ bs <= 7 + 4 * lenZ s.
Proof.
  intros (Hs & Hl & Ha). unfold write_length_and_string, MAX_PLAIN_TEXT_STRING_LENGTH.
  assert (I : forall v bs, int_encode (u32 v) 7 = Ret bs -> lenZ bs <= 6).
  { intros v x E. destruct (int_encode_spec 7 (u32 v) ltac:(lia)) as (b & rest & E' & _ & _ & H & _).
    - unfold u32. change (2 ^ 32) with 4294967296. apply Z.mod_pos_bound. lia.
    - rewrite E in E'. injection E' as ->. exact H. }
  pose proof (lenZ_nonneg s). destruct (lenZ s >? 3) eqn:E.
  - assert (A : ascii_if_signed cs s) by (intros C; destruct (Ha C); [lia|assumption]).
    destruct (huffman_encode cs s) as [p| | |] eqn:Ep; try discriminate. cbn [obind].
    apply huffman_encode_size in Ep; auto. rewrite <- huff_bits_total in Ep by auto. pose proof (code_bits_max s Hs).
    destruct (int_encode (u32 (lenZ p)) 7) as [[|b rest]| | |] eqn:Ei; try discriminate. intros [= <-]. apply I in Ei.
    rewrite lenZ_cons in *. rewrite lenZ_app. lia.
  - destruct (int_encode (u32 (lenZ s)) 7) as [[|b rest]| | |] eqn:Ei; try discriminate. intros [= <-]. apply I in Ei.
    rewrite lenZ_cons in *. rewrite lenZ_app. lia.
Qed.
Lemma encode_header_size cs t h bs t' : header_ok cs h -> encode_header cs t h = Ret (bs, t') ->
  lenZ bs <= 16 + 4 * (lenZ (h_name h) + lenZ (h_value h)).
Proof.
  intros [Hn Hv]. pose proof (lenZ_nonneg (h_name h)). pose proof (lenZ_nonneg (h_value h)). unfold encode_header.
  destruct (find_index _ _); [intros [= <- _]; change (lenZ [_]) with 1; lia|].
  destruct (dt_find _ _); [intros [= <- _]; change (lenZ [_]) with 1; lia|].
  destruct (find_index _ _); [|destruct (dt_find_name _ _)].
  1, 2: destruct (write_length_and_string cs (h_value h)) as [v| | |] eqn:E; try discriminate; cbn [obind]; apply write_string_size in E; auto;
    destruct (dt_insert t h); try discriminate; intros [= <- _]; rewrite lenZ_cons; lia.
  destruct (write_length_and_string cs (h_name h)) as [n| | |] eqn:En; try discriminate. cbn [obind]. apply write_string_size in En; auto.
  destruct (write_length_and_string cs (h_value h)) as [v| | |] eqn:E; try discriminate. cbn [obind]. apply write_string_size in E; auto.
  destruct (dt_insert t h); try discriminate. intros [= <- _]. rewrite lenZ_cons, lenZ_app. lia.
Qed.
Lemma hpack_encode_size cs hs : forall t bs t', Forall (header_ok cs) hs -> hpack_encode cs t hs = Ret (bs, t') -> lenZ bs <= block_bound hs.
Proof.
  induction hs as [|h hs IH]; intros t bs t' H; cbn [hpack_encode]; [now intros [= <- _]|]. apply Forall_cons_iff in H as [Hh H].
  destruct (encode_header cs t h) as [[b1 t1]| | |] eqn:E1; try discriminate. cbn [obind]. apply encode_header_size in E1; auto.
  destruct (hpack_encode cs t1 hs) as [[b2 t2]| | |] eqn:E2; try discriminate. cbn [obind]. apply IH in E2; auto.
  intros [= <- _]. rewrite lenZ_app. unfold block_bound in *. cbn [fold_right]. lia.
Qed.
Lemma encode_seq_size cs hss : forall t bs t', Forall (Forall (header_ok cs)) hss -> encode_seq cs t hss = Ret (bs, t') ->
  Forall2 (fun b hs => lenZ b <= block_bound hs) bs hss.
Proof.
  induction hss as [|hs hss IH]; intros t bs t' H; cbn [encode_seq]; [intros [= <- _]; constructor|]. apply Forall_cons_iff in H as [Hh H].
  destruct (hpack_encode cs t hs) as [[b1 t1]| | |] eqn:E1; try discriminate. cbn [obind]. apply hpack_encode_size in E1; auto.
  destruct (encode_seq cs t1 hss) as [[b2 t2]| | |] eqn:E2; try discriminate. cbn [obind]. apply IH in E2; auto.
  intros [= <- _]. constructor; auto.
Qed.
