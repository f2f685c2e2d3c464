(** C128: at level trace the console shows how each header block is read. *)
From Verif Require Import Base BaseLemmas Huffman HuffmanProofs DynTable SpecTable HpackDec SpecHpack HpackDecProofs Http AccessLog Messages DebugMessages SpecDebug HpackTrace SpecHpackTrace HpackTraceProofs.

(** Whatever block arrives on whatever connection, its messages are those of the
    representations it consists of, as RFC 7541 defines them, in their order, with the table
    that is then current; if the block is refused or reading it is undefined, those of the
    representations before that and then of one whose messages end with an error. *)
Theorem C128_told : forall T t data, huffman_tree = Ret T -> reachable_table T t -> all_bytes data ->
  exists read hs st ms, told_block (state_of t) read hs st ms /\
    match hpack_decode T t data with
    | Ret (Val fields, t') => read = data /\ fields = hs /\ state_of t' = st /\ decode_trace T t data = ms
    | Ret (Error _, t') => state_of t' = st /\
        exists first rest before reason, data = read ++ first :: rest /\
          decode_trace T t data = ms ++ representation first :: before ++ [Msg LErr reason] /\ Forall (fun m => m_level m = LTrace) before
    | Undef =>
        exists first rest before reason, data = read ++ first :: rest /\
          decode_trace T t data = ms ++ representation first :: before ++ [Msg LErr reason] /\ Forall (fun m => m_level m = LTrace) before
    | _ => False
    end.
Proof.
  intros T t data HT Ht Hd. pose proof (reachable_ok T t HT Ht) as [R Hm]. apply tree_unique in HT as ->.
  destruct (loop_told (length data) t _ _ data [] R Hm Hd (le_n _)) as (r1 & hs & l & m & ms & Hb & [(-> & E & t' & Eo & R')|(f & r2 & ms2 & Er & E & (pre & x & -> & Hp) & Ho)]);
    exists r1, hs, (l, m), ms || exists data, hs, (l, m), ms; (split; [exact Hb|]); unfold hpack_decode, decode_trace.
  - rewrite Eo. cbn [List.app]. repeat split; auto. apply (dt_rep_state _ _ _ R').
  - destruct Ho as [(t' & -> & R')| ->].
    + split; [apply (dt_rep_state _ _ _ R')|]. exists f, r2, pre, x. auto.
    + exists f, r2, pre, x. auto.
Qed.
Print Assumptions C128_told.

(** At level debug what is left of it is what C124 and C125 are about. *)
Theorem C128_debug : forall T t data, at_debug (decode_trace T t data) = decode_debug T t data.
Proof. intros T t data. apply at_debug_loop. Qed.
Print Assumptions C128_debug.

(** Each field of an accepted block is named by one message, in the order of the fields. *)
Theorem C128_fields : forall T t data hs t', huffman_tree = Ret T -> reachable_table T t -> all_bytes data ->
  hpack_decode T t data = Ret (Val hs, t') ->
  Forall2 (fun h m => m = field_line h \/ exists i, 1 <= i /\ m = entry_line i h) hs (filter names_field (decode_trace T t data)).
Proof.
  intros T t data hs t' HT Ht Hd E. destruct (C128_told T t data HT Ht Hd) as (r & hs1 & st & ms & Hb & H). rewrite E in H.
  destruct H as (-> & -> & _ & ->). exact (told_fields _ _ _ _ _ Hb).
Qed.
Print Assumptions C128_fields.

(** Full statement: blocks with equal messages have equal fields.  This holds if no name of
    a field contains a comma. *)
Theorem C128_read_back_partial : forall T t data hs t1 t' data' hs' t1',
  huffman_tree = Ret T -> reachable_table T t -> all_bytes data -> hpack_decode T t data = Ret (Val hs, t1) ->
  reachable_table T t' -> all_bytes data' -> hpack_decode T t' data' = Ret (Val hs', t1') ->
  Forall (fun h => ~ In 44 (h_name h)) hs -> Forall (fun h => ~ In 44 (h_name h)) hs' ->
  decode_trace T t data = decode_trace T t' data' -> hs = hs'.
Proof.
  intros T t data hs t1 t' data' hs' t1' HT Ht Hd E Ht' Hd' E' N N' M.
  pose proof (C128_fields T t data hs t1 HT Ht Hd E) as F. pose proof (C128_fields T t' data' hs' t1' HT Ht' Hd' E') as F'. rewrite M in F.
  exact (fields_read hs hs' _ N N' F F').
Qed.
Print Assumptions C128_read_back_partial.

(** Not otherwise: names are not checked, and a comma in a name looks like its end.  A field
    named "x, value: y" with the value "z" and one named "x" with the value "y, value: z". *)
Definition lit (s : bytes) : bytes := lenZ s :: s.
Definition odd_name : bytes := [0] ++ lit (str "x, value: y") ++ lit (str "z").
Definition odd_value : bytes := [0] ++ lit (str "x") ++ lit (str "y, value: z").
Theorem C128_read_back_refuted : forall T, huffman_tree = Ret T -> exists t hs hs',
  reachable_table T t /\ hpack_decode T t odd_name = Ret (Val hs, t) /\ hpack_decode T t odd_value = Ret (Val hs', t) /\
  decode_trace T t odd_name = decode_trace T t odd_value /\ hs <> hs'.
Proof.
  intros T _. exists (dt_init DEFAULT_MAX_TABLE_SIZE), [Hdr (str "x, value: y") (str "z")], [Hdr (str "x") (str "y, value: z")].
  split; [exists [], []; split; [constructor|vm_compute; reflexivity]|]. split; [vm_compute; reflexivity|]. split; [vm_compute; reflexivity|].
  split; [vm_compute; reflexivity|discriminate].
Qed.
Print Assumptions C128_read_back_refuted.

(** A capacity for the table, GET over https, a path that is put into the table and then taken
    from there, a field not to be put there; then an entry that does not exist. *)
Definition some_block : bytes := [63; 97; 130; 135] ++ [68] ++ lit (str "/a") ++ [190] ++ [16] ++ lit (str "x-id") ++ lit (str "7").
Example C128_case : forall T, huffman_tree = Ret T ->
  decode_trace T (dt_init DEFAULT_MAX_TABLE_SIZE) (some_block ++ [200]) =
  [Msg LTrace (str "header type: SizeUpdate, byte: 0x3F"); Msg LTrace (str "dynamic table size updated to: 128");
   Msg LTrace (str "header type: Indexed, byte: 0x82"); Msg LTrace (str "read indexed header from static table (idx: 1, name: :method, val: GET)");
   Msg LTrace (str "header type: Indexed, byte: 0x87"); Msg LTrace (str "read indexed header from static table (idx: 6, name: :scheme, val: https)");
   Msg LTrace (str "header type: LiteralIncremental, byte: 0x44"); Msg LTrace (str "decoding literal field with index: 4, new name: false");
   Msg LTrace (str "read indexed header name from static table (idx: 3, name: :path)"); Msg LTrace (str "decoded header: name: :path, value: /a");
   Msg LDebug (str "dynamic table: current sz: 39, max: 128");
   Msg LTrace (str "header type: Indexed, byte: 0xBE"); Msg LTrace (str "read indexed header from dynamic table (idx: 0, name: :path, val: /a)");
   Msg LTrace (str "header type: LiteralNeverIndex, byte: 0x10"); Msg LTrace (str "decoding literal field with index: 0, new name: true");
   Msg LTrace (str "decoded header: name: x-id, value: 7");
   Msg LTrace (str "header type: Indexed, byte: 0xC8"); Msg LErr (str "invalid dynamic table index lookup for header (idx: 72, sz: 1)")].
Proof. intros T _. vm_compute. reflexivity. Qed.
