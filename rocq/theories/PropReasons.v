(** C123: the reason given for refusing a header block (false as a whole, see
    [C123_bytes_refuted]). *)
From Verif Require Import FileSys Files MessagesFiles Base BaseLemmas SpecInt IntCodec IntProofs SpecHuffman Huffman HuffmanProofs SpecTable DynTable DynTableProofs SpecHpack HpackLemmas HpackDec HpackDecProofs
  SpecFrames SpecConn Http Conn ConnBasic ConnWit AccessLog Messages MessagesProofs MessagesRule PropMessages SpecReasons ReasonsProofs.

(** Of a block that is not accepted a beginning could be read; what follows it has a fault, and
    the one message about the block names this fault, with the numbers concerned. *)
Theorem C123_reason_partial : forall T t data,
  huffman_tree = Ret T -> reachable_table T t -> all_bytes data ->
  (forall hs t', hpack_decode T t data <> Ret (Val hs, t')) ->
  exists r1 r2 hs l m text, data = r1 ++ r2 /\
    rfc_block server_profile (dt_table t, dt_max t) r1 hs (l, m) /\ field_fault l r2 text /\
    decode_messages T t data = [Msg LErr text].
Proof. exact refused_reason. Qed.
Print Assumptions C123_reason_partial.

(** Conversely each of these faults, wherever it is, is reported in its own words. *)
Theorem C123_found : forall T t r1 r2 hs l m text,
  huffman_tree = Ret T -> reachable_table T t -> all_bytes (r1 ++ r2) ->
  rfc_block server_profile (dt_table t, dt_max t) r1 hs (l, m) -> field_fault l r2 text ->
  (forall hs t', hpack_decode T t (r1 ++ r2) <> Ret (Val hs, t')) /\
  decode_messages T t (r1 ++ r2) = [Msg LErr text].
Proof. exact reason_refused. Qed.
Print Assumptions C123_found.

(** After a readable field, a path whose Huffman code goes on after the end-of-string code. *)
Definition bad_padding : bytes := [4; 133; 255; 255; 255; 255; 0].
Lemma bad_padding_fault dyn : field_fault dyn bad_padding (str "remaining unmatched Huffman code is not padding: (bit pos = 32)").
Proof.
  apply (fault_value dyn 4 4 [] (str ":path") [133; 255; 255; 255; 255; 0]).
  - right. lia.
  - apply (name_indexed server_profile 4 dyn [4] 4 (Hdr (str ":path") (str "/"))); [|lia|reflexivity].
    split; [apply (int_short 4 4); [now split|reflexivity]|now split].
  - apply (fault_padding 133 [] [255; 255; 255; 255; 0] [] [true; true] [false; false; false; false; false; false; false] [] (str "32")).
    + split; [apply (int_short 7 133); [now split|reflexivity]|now split].
    + lia.
    + constructor.
    + reflexivity.
    + repeat constructor.
    + change (str "32") with [51; 50]. split; [repeat constructor; lia|]. split; [reflexivity|discriminate].
Qed.
Lemma get_index : p_rfc_int server_profile 7 [130] 2.
Proof.
  split.
  - assert (H : is_byte 130) by now split.
    assert (K : 130 mod 2 ^ 7 < 2 ^ 7 - 1) by reflexivity.
    exact (int_short 7 130 H K).
  - split; [discriminate|]. reflexivity.
Qed.
Example C123_case : forall T, huffman_tree = Ret T ->
  decode_messages T (dt_init DEFAULT_MAX_TABLE_SIZE) ([130] ++ bad_padding) =
    [Msg LErr (str "remaining unmatched Huffman code is not padding: (bit pos = 32)")].
Proof.
  intros T HT. apply (C123_found T (dt_init DEFAULT_MAX_TABLE_SIZE) [130] bad_padding [Hdr (str ":method") (str "GET")] [] 65536 _ HT).
  - exists [], []. split; [constructor|reflexivity].
  - repeat constructor; lia.
  - change [130] with ([130] ++ [] : bytes). change [Hdr (str ":method") (str "GET")] with ([Hdr (str ":method") (str "GET")] ++ []).
    apply (block_cons server_profile _ _ _ ([], 65536)); [|constructor].
    apply (repr_indexed server_profile [] 65536 130 [] 2); [lia| |reflexivity].
    exact get_index.
  - apply bad_padding_fault.
Qed.

(** Two more, over a connection: an index that the tables do not have, and a name which
    announces more octets than there are. *)
Example C123_connection_case : forall T cs, huffman_tree = Ret T -> exists c tr w ms,
  narrated unit failing cs T no_words oops boom eq 0 tt any (Some DiscardConnection) c tr w ms /\
  received tr = w_hello ++ [0; 0; 4; 1; 5; 0; 0; 0; 1; 130; 0; 5; 97] /\
  ms = [info (str "valid HTTP/2 preface received"); err (str "Insufficient data for string"); err (str "protocol error. closing connection")].
Proof.
  intros T cs _. apply (by_narrate failing cs T no_words oops boom eq 0 tt any [deliver [octets (w_hello ++ [0; 0; 4; 1; 5; 0; 0; 0; 1; 130; 0; 5; 97])]]); [scripts_ok|apply Forall_any|].
  destruct cs; vm_compute; repeat split.
Qed.

(** A table size update that is all there, but too large or written with too many octets, is
    said to have "not enough bytes". *)
Theorem C123_bytes_refuted : forall T t b ib n rest,
  huffman_tree = Ret T -> reachable_table T t -> all_bytes ((b :: ib) ++ rest) ->
  32 <= b < 64 -> rfc_int 5 (b :: ib) n -> 2 ^ 32 <= n \/ 6 < lenZ (b :: ib) ->
  decode_messages T t ((b :: ib) ++ rest) =
    [Msg LErr (str "failed to decode dynamic table size update (not enough bytes)")].
Proof.
  intros T t b ib n rest HT Hre Hd Hb Hi Hn.
  apply (C123_found T t [] ((b :: ib) ++ rest) [] (dt_table t) (dt_max t) _ HT Hre Hd); [constructor|].
  apply fault_update_unread; [exact Hb|]. intros (used & rest' & v & E & Hv & Hl & Hm).
  change (b :: ib ++ rest) with ((b :: ib) ++ rest) in E.
  destruct (rfc_int_prefix_free _ _ _ Hi _ _ _ _ Hv E) as (<- & _ & <-). lia.
Qed.
Print Assumptions C123_bytes_refuted.

(** 2^32 + 30 in six octets; 31 in seven. *)
Example C123_bytes_case :
  rfc_int 5 [63; 255; 255; 255; 255; 15] (2 ^ 32 + 30) /\ rfc_int 5 [63; 128; 128; 128; 128; 128; 0] 31.
Proof.
  split.
  - replace (2 ^ 32 + 30) with (2 ^ 5 - 1 + ((255 - 128) + 128 * ((255 - 128) + 128 * ((255 - 128) + 128 * ((255 - 128) + 128 * 15))))) by reflexivity.
    apply int_long; [now split|reflexivity|]. repeat (apply cont_more; [lia|]). apply cont_last. lia.
  - replace 31 with (2 ^ 5 - 1 + ((128 - 128) + 128 * ((128 - 128) + 128 * ((128 - 128) + 128 * ((128 - 128) + 128 * ((128 - 128) + 128 * 0)))))) by reflexivity.
    apply int_long; [now split|reflexivity|]. repeat (apply cont_more; [lia|]). apply cont_last. lia.
Qed.
