(** Properties C04-C08: Huffman coding. Statements only; proofs are in HuffmanProofs.v. *)
From Verif Require Import Base BaseLemmas SpecHuffman HuffmanTable Huffman HuffmanProofs.

(** C04. The source table is the canonical code of the RFC code lengths. *)
Theorem C04_table_canonical : forall c, is_byte c ->
  nth_error HUFFMAN_CODES (Z.to_nat c) = Some (code_value c, code_len c).
Proof. exact table_canonical. Qed.
Print Assumptions C04_table_canonical.

(** No code is a prefix of another one. *)
Theorem C04_prefix_free : forall c d x y, is_byte c -> is_byte d ->
  code_bits c ++ x = code_bits d ++ y -> c = d /\ x = y.
Proof. exact codes_prefix_free. Qed.
Print Assumptions C04_prefix_free.

(** Completeness: thirty or more bits always start with a symbol or with EOS. *)
Theorem C04_complete : forall bits, (30 <= length bits)%nat ->
  (exists c rest, is_byte c /\ bits = code_bits c ++ rest) \/ (exists rest, bits = EOS ++ rest).
Proof. exact codes_complete. Qed.
Print Assumptions C04_complete.

Theorem C04_eos_distinct : forall rest c rest', is_byte c -> EOS ++ rest <> code_bits c ++ rest'.
Proof. exact EOS_no_symbol. Qed.
Print Assumptions C04_eos_distinct.

(** Building the decoding tree raises nothing. *)
Theorem C04_tree_builds : exists t, huffman_tree = Ret t.
Proof. exact (ex_intro _ _ huffman_tree_eq). Qed.
Print Assumptions C04_tree_builds.

Example C04_example : code_bits 48 = repeat false 5 /\
  code_bits 97 = [false; false; false; true; true] /\
  code_bits 22 = repeat true 29 ++ [false].
Proof. vm_compute. repeat split. Qed.

(** C05. Round trip. [cs] says whether char is signed; a signed char restricts the
    strings to ASCII (C21 shows what happens otherwise). *)
Theorem C05_huffman_round_trip : forall t cs s, huffman_tree = Ret t ->
  all_bytes s -> (cs = true -> Forall (fun c => c < 128) s) ->
  exists p, huffman_encode cs s = Ret p /\ huffman_decode t p = Ret (Val s).
Proof. exact round_trip_t. Qed.
Print Assumptions C05_huffman_round_trip.

Example C05_example :
  huffman_encode true (str "www.example.com") =
    Ret [241; 227; 194; 229; 242; 58; 107; 160; 171; 144; 244; 255] /\
  (let! t := huffman_tree in
   huffman_decode t [241; 227; 194; 229; 242; 58; 107; 160; 171; 144; 244; 255]) =
    Ret (Val (str "www.example.com")) /\
  huffman_encode false [255; 0; 200] = Ret [255; 255; 251; 191; 241; 255; 255; 241; 127].
Proof. vm_compute. repeat split. Qed.

(** C06. What acceptance and rejection mean; there is no other outcome. *)
Theorem C06_huffman_decode_sound : forall t p, huffman_tree = Ret t ->
  match huffman_decode t p with
  | Ret (Val s) => all_bytes s /\ exists tail, payload_bits p = huff_bits s ++ tail /\
      no_symbol tail /\
      ((length tail < 30)%nat \/ exists rest, tail = EOS ++ rest /\ all_ones rest)
  | Ret (Error InvalidCode) => exists s rest, all_bytes s /\
      payload_bits p = huff_bits s ++ EOS ++ rest /\ ~ all_ones rest
  | _ => False
  end.
Proof. exact decode_sound_t. Qed.
Print Assumptions C06_huffman_decode_sound.

(** The accepted inputs are exactly those of the lenient relation. *)
Theorem C06_huffman_decode_exact : forall t p s, huffman_tree = Ret t ->
  (huffman_decode t p = Ret (Val s) <-> all_bytes s /\ huff_lenient p s).
Proof. exact decode_iff_t. Qed.
Print Assumptions C06_huffman_decode_exact.

Example C06_example :
  (let! t := huffman_tree in huffman_decode t [255; 255; 255; 255; 254]) =
    Ret (Error InvalidCode) /\
  (let! t := huffman_tree in huffman_decode t [31; 255; 255; 255; 255]) = Ret (Val (str "a")) /\
  (let! t := huffman_tree in huffman_decode t [24; 255; 255]) = Ret (Val (str "aa")).
Proof. vm_compute. repeat split. Qed.

(** C07. Padding is NOT validated: zero bits, a whole octet, or an encoded EOS are
    all accepted as padding.  (Refutes the property as stated.) *)
Theorem C07_padding_refuted : forall t, huffman_tree = Ret t ->
  huffman_decode t [0] = Ret (Val (str "0")) /\ forall s, all_bytes s -> ~ huff_strict [0] s.
Proof. exact zero_padding_accepted. Qed.
Print Assumptions C07_padding_refuted.

Theorem C07_long_padding_refuted : forall t, huffman_tree = Ret t ->
  huffman_decode t [255] = Ret (Val []) /\ huffman_decode t [255; 255; 255; 255] = Ret (Val []) /\
  ~ huff_strict [255] [] /\ ~ huff_strict [255; 255; 255; 255] [].
Proof. exact long_padding_accepted. Qed.
Print Assumptions C07_long_padding_refuted.

(** What remains true: validly padded input is accepted with the right result.
    Missing for C07: rejection of the invalid paddings above. *)
Theorem C07_valid_padding_partial : forall t p s, huffman_tree = Ret t ->
  all_bytes s -> huff_strict p s -> huffman_decode t p = Ret (Val s).
Proof. exact decode_strict_t. Qed.
Print Assumptions C07_valid_padding_partial.

Example C07_example : huff_strict [7] (str "0").
Proof. exists [true; true; true]. vm_compute. repeat split; try lia. repeat constructor. Qed.

(** C08. Output sizes. *)
Theorem C08_encoded_size : forall cs s p,
  all_bytes s -> (cs = true -> Forall (fun c => c < 128) s) ->
  huffman_encode cs s = Ret p ->
  lenZ p = (fold_right Z.add 0 (map code_len s) + 7) / 8.
Proof. exact huffman_encode_size. Qed.
Print Assumptions C08_encoded_size.

Theorem C08_encoded_padding : forall cs s,
  all_bytes s -> (cs = true -> Forall (fun c => c < 128) s) ->
  exists p, huffman_encode cs s = Ret p /\ all_bytes p /\
    exists k, (k < 8)%nat /\ payload_bits p = huff_bits s ++ repeat true k.
Proof. exact huffman_encode_spec. Qed.
Print Assumptions C08_encoded_padding.

Theorem C08_decoded_size : forall t p s, huffman_tree = Ret t ->
  huffman_decode t p = Ret (Val s) -> 5 * lenZ s <= 8 * lenZ p.
Proof. exact decode_bound_t. Qed.
Print Assumptions C08_decoded_size.

Example C08_example : huffman_encode true (str "aaaaaaaa") = Ret [24; 198; 49; 140; 99] /\
  (let! t := huffman_tree in huffman_decode t [24; 198; 49; 140; 99]) = Ret (Val (str "aaaaaaaa")).
Proof. vm_compute. repeat split. Qed.
