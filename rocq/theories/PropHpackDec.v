(** Properties C12-C17: the header block decoder. Statements only; proofs are in
    HpackDecProofs.v.  [decode_seq T (dt_init DEFAULT_MAX_TABLE_SIZE) blocks] decodes
    the header blocks of a connection in order; [T] is the Huffman tree the program
    builds at start-up. *)
From Verif Require Import Base BaseLemmas SpecInt SpecTable SpecHuffman SpecHpack Huffman DynTable HpackDec
  DynTableProofs HuffmanProofs HpackDecProofs.

Definition fld (n v : string) : header := Hdr (str n) (str v).

(** RFC 7541 C.3: three requests on one connection, no Huffman coding. *)
Definition ex_blocks : list bytes := [
  [130; 134; 132; 65; 15] ++ str "www.example.com";
  [130; 134; 132; 190; 88; 8] ++ str "no-cache";
  [130; 135; 133; 191; 64; 10] ++ str "custom-key" ++ [12] ++ str "custom-value"].
Definition ex_lists : list (list header) :=
  [
  [fld ":method" "GET"; fld ":scheme" "http"; fld ":path" "/"; fld ":authority" "www.example.com"];
  [fld ":method" "GET"; fld ":scheme" "http"; fld ":path" "/"; fld ":authority" "www.example.com";
   fld "cache-control" "no-cache"];
  [fld ":method" "GET"; fld ":scheme" "https"; fld ":path" "/index.html"; fld ":authority" "www.example.com";
   fld "custom-key" "custom-value"]].
Definition ex_table : dyn_table :=
  DT [fld "custom-key" "custom-value"; fld "cache-control" "no-cache"; fld ":authority" "www.example.com"] 164 65536.
Example ex_bytes : Forall all_bytes ex_blocks.
Proof. now apply all_blocksb_ok. Qed.

(** C12 *)
Theorem C12_decoder_sound : forall T blocks hss t,
  huffman_tree = Ret T -> Forall all_bytes blocks ->
  decode_seq T (dt_init DEFAULT_MAX_TABLE_SIZE) blocks = Ret (Val hss, t) ->
  rfc_blocks server_profile ([], 65536) blocks hss (dt_table t, dt_max t).
Proof. exact connection_sound. Qed.
Print Assumptions C12_decoder_sound.

Example C12_example : forall T,
  decode_seq T (dt_init DEFAULT_MAX_TABLE_SIZE) ex_blocks = Ret (Val ex_lists, ex_table).
Proof. reflexivity. Qed.

(** C13: every block the RFC allows within the limits of the property ... *)
Theorem C13_decoder_complete : forall T blocks hss l m,
  huffman_tree = Ret T -> Forall all_bytes blocks ->
  rfc_blocks limited_profile ([], 65536) blocks hss (l, m) ->
  exists t, decode_seq T (dt_init DEFAULT_MAX_TABLE_SIZE) blocks = Ret (Val hss, t) /\
    dt_table t = l /\ dt_max t = m.
Proof. exact connection_complete_strict. Qed.
Print Assumptions C13_decoder_complete.

(** ... and, with C12, exactly the blocks of the lenient relation. *)
Theorem C13_decoder_exact : forall T blocks hss l m,
  huffman_tree = Ret T -> Forall all_bytes blocks ->
  rfc_blocks server_profile ([], 65536) blocks hss (l, m) ->
  exists t, decode_seq T (dt_init DEFAULT_MAX_TABLE_SIZE) blocks = Ret (Val hss, t) /\
    dt_table t = l /\ dt_max t = m.
Proof. exact connection_complete. Qed.
Print Assumptions C13_decoder_exact.

(** The hypothesis is met by the RFC's own example with raw strings, and by a literal
    with a non-minimal length integer. *)
Example C13_example : exists st,
  rfc_blocks limited_profile ([], 65536) [[0; 1; 65; 127; 128; 0] ++ repeat 66 127] 
    [[Hdr [65] (repeat 66 127)]] st.
Proof.
  exists ([], 65536). eapply blocks_cons; [|constructor].
  change ([0; 1; 65; 127; 128; 0] ++ repeat 66 127) with (((0 :: [1; 65]) ++ ([127; 128; 0] ++ repeat 66 127)) ++ []).
  change [Hdr [65] (repeat 66 127)] with ([Hdr [65] (repeat 66 127)] ++ []).
  eapply block_cons; [|constructor].
  apply repr_literal; [lia| |].
  - change (0 :: [1; 65]) with ([0] ++ [1; 65]). apply name_literal.
    + split; [apply (int_short 4 0); [now split|reflexivity]|cbn; split; [|reflexivity]]. now cbn.
    + change [1; 65] with ((1 :: []) ++ [65]). apply string_raw; try (cbn; lia).
      * split; [apply (int_short 7 1); [now split|reflexivity]|cbn]. split; [easy|lia].
      * now apply all_bytesb_ok.
  - apply string_raw; try lia.
    + split; [|cbn; split; [easy|reflexivity]].
      replace (lenZ (repeat 66 127)) with (2 ^ 7 - 1 + 0) by reflexivity.
      apply int_long; [now split|reflexivity|]. apply (cont_more 128 [0] 0); [lia|]. apply (cont_last 0). lia.
    + now apply all_bytesb_ok.
    + now cbn.
Qed.

(** C14: false.  One octet is enough: an index whose integer is cut off,
    too long or too large makes the decoder read the absent value of a
    [std::expected]. *)
Theorem C14_defined_refuted : forall T t,
  hpack_decode T t [255] = Undef /\ hpack_decode T t [127; 128] = Undef /\
  hpack_decode T t [15; 255; 255; 255; 255; 255] = Undef.
Proof. intros. repeat split; reflexivity. Qed.
Print Assumptions C14_defined_refuted.

(** What holds: these are the only inputs without a defined result.  For a block in
    which no representation starts with an unreadable index (for as long as it can be
    read at all), the decoder returns headers or a protocol error. *)
Theorem C14_defined_partial : forall T t data,
  huffman_tree = Ret T -> reachable_table T t -> all_bytes data ->
  match hpack_decode T t data with
  | Ret (Val _, _) => True
  | Ret (Error e, _) => e = ProtocolError
  | Undef => exists r1 r2 hs l m, data = r1 ++ r2 /\
      rfc_block server_profile (dt_table t, dt_max t) r1 hs (l, m) /\ bad_index r2
  | _ => False
  end.
Proof. exact defined_iff. Qed.
Print Assumptions C14_defined_partial.

(** Conversely every such input is undefined, whatever came before it. *)
Theorem C14_undefined_exactly : forall T t r1 r2 hs st,
  huffman_tree = Ret T -> reachable_table T t -> all_bytes (r1 ++ r2) ->
  rfc_block server_profile (dt_table t, dt_max t) r1 hs st -> bad_index r2 ->
  hpack_decode T t (r1 ++ r2) = Undef.
Proof. exact bad_index_undefined. Qed.
Print Assumptions C14_undefined_exactly.

Example C14_example : forall T,
  hpack_decode T (dt_init DEFAULT_MAX_TABLE_SIZE) [130; 64] = Ret (Error ProtocolError, dt_init DEFAULT_MAX_TABLE_SIZE) /\
  hpack_decode T (dt_init DEFAULT_MAX_TABLE_SIZE) [130; 255] = Undef /\
  reachable_table T ex_table.
Proof.
  intros T. repeat split. exists ex_blocks, ex_lists. split; [apply ex_bytes|reflexivity].
Qed.

(** C15 *)
Theorem C15_decoder_bounds : forall T blocks hss t,
  huffman_tree = Ret T -> Forall all_bytes blocks ->
  decode_seq T (dt_init DEFAULT_MAX_TABLE_SIZE) blocks = Ret (Val hss, t) ->
  Forall (Forall (fun h => lenZ (h_name h) <= 4096 /\ lenZ (h_value h) <= 4096)) hss /\
  Forall2 (fun b hs => length hs <= length b)%nat blocks hss /\
  dt_size t <= 65536 /\ dt_size t = table_size (dt_table t) /\ lenZ (dt_table t) <= 2048.
Proof. exact connection_bounds. Qed.
Print Assumptions C15_decoder_bounds.

(** The table stays within bounds when a block is refused, too. *)
Theorem C15_refused_block_bounds : forall T t data res t',
  huffman_tree = Ret T -> reachable_table T t -> all_bytes data ->
  hpack_decode T t data = Ret (res, t') ->
  table_size (dt_table t') <= 65536 /\ lenZ (dt_table t') <= 2048.
Proof. exact reachable_table_bounds. Qed.
Print Assumptions C15_refused_block_bounds.

(** Strings of exactly 4096 octets pass, longer ones do not. *)
Example C15_example : forall T,
  let b n := [0; 1; 65; 127; 129 + (n - 4096); 31] ++ repeat 66 (Z.to_nat n) in
  hpack_decode T (dt_init DEFAULT_MAX_TABLE_SIZE) (b 4096) =
    Ret (Val [Hdr [65] (repeat 66 4096)], dt_init DEFAULT_MAX_TABLE_SIZE) /\
  hpack_decode T (dt_init DEFAULT_MAX_TABLE_SIZE) (b 4097) =
    Ret (Error ProtocolError, dt_init DEFAULT_MAX_TABLE_SIZE).
Proof. intros T. split; vm_compute; reflexivity. Qed.

(** C16: [r1] is any readable beginning of the block (empty, for instance) and [l] the
    entries of the dynamic table after it. *)
Theorem C16_absent_index_rejected : forall T t r1 hs l m b ib i rest,
  huffman_tree = Ret T -> reachable_table T t -> all_bytes (r1 ++ (b :: ib) ++ rest) ->
  rfc_block server_profile (dt_table t, dt_max t) r1 hs (l, m) ->
  (128 <= b /\ p_rfc_int server_profile 7 (b :: ib) i \/          (* indexed field *)
   64 <= b < 128 /\ p_rfc_int server_profile 6 (b :: ib) i /\ i <> 0 \/   (* literal, indexed name *)
   0 <= b < 32 /\ p_rfc_int server_profile 4 (b :: ib) i /\ i <> 0) ->
  table_entry l i = None ->
  exists t', hpack_decode T t (r1 ++ (b :: ib) ++ rest) = Ret (Error ProtocolError, t').
Proof. exact absent_index_rejected. Qed.
Print Assumptions C16_absent_index_rejected.

(** [table_entry] is absent exactly for index 0 and beyond both tables. *)
Theorem C16_absent_exactly : forall l i,
  table_entry l i = None <-> (i < 1 \/ 61 + lenZ l < i).
Proof. exact table_entry_none. Qed.
Print Assumptions C16_absent_exactly.

Example C16_example : forall T,
  hpack_decode T ex_table [128] = Ret (Error ProtocolError, ex_table) /\
  hpack_decode T ex_table [193] = Ret (Error ProtocolError, ex_table) /\
  hpack_decode T ex_table [192] = Ret (Val [fld ":authority" "www.example.com"], ex_table) /\
  hpack_decode T ex_table [255; 128; 128; 128; 128; 15] = Ret (Error ProtocolError, ex_table) /\
  table_entry (dt_table ex_table) (127 + 15 * 2 ^ 28) = None /\
  p_rfc_int server_profile 7 [255; 128; 128; 128; 128; 15] (127 + 15 * 2 ^ 28).
Proof.
  intros T. repeat split; try reflexivity.
  change (127 + 15 * 2 ^ 28) with (2 ^ 7 - 1 + ((128 - 128) + 128 * ((128 - 128) + 128 * ((128 - 128) + 128 * ((128 - 128) + 128 * 15))))).
  apply int_long; [now cbn|reflexivity|]. repeat (apply cont_more; [lia|]). apply cont_last. lia.
Qed.

(** C17: the client starts with any table limit up to the server's, may lower it and
    forget old entries at any time between blocks, and uses any representation. *)
Theorem C17_smaller_table_clients : forall T blocks hss limit,
  huffman_tree = Ret T -> Forall all_bytes blocks ->
  0 <= limit <= 65536 -> frugal_blocks server_profile ([], limit) blocks hss ->
  exists t, decode_seq T (dt_init DEFAULT_MAX_TABLE_SIZE) blocks = Ret (Val hss, t).
Proof. exact frugal_client_decoded. Qed.
Print Assumptions C17_smaller_table_clients.

(** A client with room for two such entries; the server keeps all three. *)
Example C17_example :
  let blocks := [[64; 1; 97; 1; 49]; [64; 1; 98; 1; 50]; [64; 1; 99; 1; 51; 191]] in
  let hss := [[fld "a" "1"]; [fld "b" "2"]; [fld "c" "3"; fld "b" "2"]] in
  frugal_blocks server_profile ([], 70) blocks hss /\
  (forall T, decode_seq T (dt_init 70) blocks = Ret (Val hss, DT [fld "c" "3"; fld "b" "2"] 68 70)) /\
  (forall T, decode_seq T (dt_init DEFAULT_MAX_TABLE_SIZE) blocks =
     Ret (Val hss, DT [fld "c" "3"; fld "b" "2"; fld "a" "1"] 102 65536)).
Proof.
  cbn zeta. split; [|split; reflexivity].
  apply (frugal_of_blocks _ _ _ _ ([fld "c" "3"; fld "b" "2"], 70)).
  change ([], 70) with (state_of (dt_init 70)).
  match goal with |- rfc_blocks _ _ ?bs ?hss _ =>
    assert (E : decode_seq the_tree (dt_init 70) bs = Ret (Val hss, DT [fld "c" "3"; fld "b" "2"] 68 70))
      by reflexivity;
    assert (B : Forall all_bytes bs) by now apply all_blocksb_ok end.
  apply decode_seq_sound in E; [exact (proj2 E)|exact B|].
  split; [apply dt_init_rep; now split|easy].
Qed.
