(** Model of all messages of HeaderBlockDecoder, whatever their level: those of Messages.v and
    DebugMessages.v and, between them, those with level trace. *)
From Verif Require Import Base StaticTable IntCodec Huffman DynTable HpackDec Http Conn AccessLog Messages DebugMessages.

(** spdlog::trace. *)
Definition trace (t : bytes) : message := Msg LTrace t.

(** HeaderField::to_string, header_field.h:35-50. *)
Definition type_text (ty : field_type) : bytes :=
  match ty with
  | Indexed => str "Indexed" | LiteralIncremental => str "LiteralIncremental" | SizeUpdate => str "SizeUpdate"
  | LiteralNeverIndex => str "LiteralNeverIndex" | LiteralNoIndex => str "LiteralNoIndex" | Invalid => str "Invalid"
  end.
(** fmt's 0x{:02X} for an octet and {} for a bool. *)
Definition upper_hex_digit (n : Z) : Z := if n <? 10 then 48 + n else 55 + n.
(** {:02X} with 0x before, header_block_decoder.cpp:188-237. *)
Definition upper_hex_text (n : Z) : bytes := str "0x" ++ [upper_hex_digit (n / 16); upper_hex_digit (n mod 16)].
(** {} for a bool. *)
Definition bool_text (b : bool) : bytes := if b then str "true" else str "false".

Section Decoder.
  Variable T : tree.

  (** read_indexed_header, header_block_decoder.cpp:87-108. *)
  Definition indexed_header_trace (t : dyn_table) (index : Z) : list message :=
    let table_index := u64 (index - 1) in
    let line place i (h : header) :=
      trace (str "read indexed header from " ++ place ++ str " table (idx: " ++ to_string i ++ str ", name: " ++ h_name h ++ str ", val: " ++ h_value h ++ str ")") in
    if table_index <? lenZ STATIC_TABLE then
      match nth_error STATIC_TABLE (Z.to_nat table_index) with Some h => [line (str "static") table_index h] | None => [] end
    else
      let dynamic_index := u64 (table_index - lenZ STATIC_TABLE) in
      if dynamic_index >=? dt_count t then lookup_messages (str "header") t index
      else match dt_get t dynamic_index with Ret h => [line (str "dynamic") dynamic_index h] | _ => [] end.
  (** read_indexed_header_name, header_block_decoder.cpp:110-131. *)
  Definition indexed_name_trace (t : dyn_table) (index : Z) : list message :=
    let table_index := u64 (index - 1) in
    let line place i (h : header) :=
      trace (str "read indexed header name from " ++ place ++ str " table (idx: " ++ to_string i ++ str ", name: " ++ h_name h ++ str ")") in
    if table_index <? lenZ STATIC_TABLE then
      match nth_error STATIC_TABLE (Z.to_nat table_index) with Some h => [line (str "static") table_index h] | None => [] end
    else
      let dynamic_index := u64 (table_index - lenZ STATIC_TABLE) in
      if dynamic_index >=? dt_count t then lookup_messages (str "header name") t index
      else match dt_get t dynamic_index with Ret h => [line (str "dynamic") dynamic_index h] | _ => [] end.
  (** decode_indexed_field, header_block_decoder.cpp:133-144. *)
  Definition indexed_field_trace (t : dyn_table) (r : reader) : list message :=
    match int_decode 7 r with
    | (Error _, _) => [err (str "failed to decode indexed header index (not enough bytes)")]
    | (Val index, _) => if index <? 1 then [err (str "invalid header index (<1)")] else indexed_header_trace t index
    end.
  (** decode_literal_field, header_block_decoder.cpp:146-167. *)
  Definition literal_field_trace (idx_prefix_bits : Z) (t : dyn_table) (r : reader) : list message :=
    match int_decode idx_prefix_bits r with
    | (Error _, _) => [err (str "failed to decode literal field index (not enough bytes)")]
    | (Val index, r1) =>
      let value name r2 :=
        read_length_and_string_messages T r2 ++
        match read_length_and_string T r2 with
        | Ret (Val v, _) => [trace (str "decoded header: name: " ++ name ++ str ", value: " ++ v)]
        | _ => []
        end in
      trace (str "decoding literal field with index: " ++ to_string index ++ str ", new name: " ++ bool_text (index =? 0)) ::
      if index =? 0 then
        read_length_and_string_messages T r1 ++
        match read_length_and_string T r1 with Ret (Val n, r2) => value n r2 | _ => [] end
      else
        indexed_name_trace t index ++
        match read_indexed_header_name t index with Ret (Val n) => value n r1 | _ => [] end
    end.
  (** decode_dynamic_table_size_update, header_block_decoder.cpp:169-186. *)
  Definition size_update_trace (r : reader) : list message :=
    decode_size_update_messages r ++
    match int_decode 5 r with
    | (Val new_sz, _) => if new_sz >? HARD_TABLE_SIZE_LIMIT then [] else [trace (str "dynamic table size updated to: " ++ to_string new_sz)]
    | _ => []
    end.
  (** decode, header_block_decoder.cpp:188-237. *)
  Fixpoint decode_loop_trace (fuel : nat) (t : dyn_table) (r : reader) : list message :=
    match r with
    | [] => []
    | first_byte :: _ =>
      match fuel with
      | O => []
      | S f =>
        trace (str "header type: " ++ type_text (from_byte first_byte) ++ str ", byte: " ++ upper_hex_text first_byte) ::
        match from_byte first_byte with
        | Indexed =>
          indexed_field_trace t r ++
          match decode_indexed_field t r with Ret (Val _, r1) => decode_loop_trace f t r1 | _ => [] end
        | LiteralIncremental =>
          literal_field_trace 6 t r ++
          match decode_literal_field T 6 t r with
          | Ret (Val h, r1) => match dt_insert t h with Ret t1 => insert_debug t h ++ decode_loop_trace f t1 r1 | _ => [] end
          | _ => []
          end
        | LiteralNoIndex | LiteralNeverIndex =>
          literal_field_trace 4 t r ++
          match decode_literal_field T 4 t r with Ret (Val _, r1) => decode_loop_trace f t r1 | _ => [] end
        | SizeUpdate =>
          size_update_trace r ++
          match decode_size_update t r with Ret (Val t1, r1) => decode_loop_trace f t1 r1 | _ => [] end
        | Invalid => [err (str "invalid first byte in header representation: " ++ to_string first_byte)]
        end
      end
    end.
  (** decode, header_block_decoder.cpp:188-237, of a whole block. *)
  Definition decode_trace (t : dyn_table) (data : bytes) : list message := decode_loop_trace (length data) t data.
End Decoder.
