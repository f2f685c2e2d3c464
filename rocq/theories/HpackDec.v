(** Model of lib/hpack/header_field.h and header_block_decoder.cpp. *)
From Verif Require Import Base StaticTable IntCodec Huffman DynTable.

(** enum class FrameError, frame_error.h:3. *)
Inductive frame_error := InvalidSettingsSize | UnknownFrameType | ProtocolError.

(** enum class HeaderFieldType and HeaderField::from_byte, header_field.h:6-33. *)
Inductive field_type := Indexed | LiteralIncremental | SizeUpdate | LiteralNeverIndex
  | LiteralNoIndex | Invalid.
(** HeaderField::from_byte, header_field.h:16-33. *)
Definition from_byte (b : Z) : field_type :=
  if negb (Z.land b 128 =? 0) then Indexed
  else if negb (Z.land b 64 =? 0) then LiteralIncremental
  else if negb (Z.land b 32 =? 0) then SizeUpdate
  else if negb (Z.land b 16 =? 0) then LiteralNeverIndex
  else if b <? 16 then LiteralNoIndex
  else Invalid.

Definition MAX_HEADER_STRING_LENGTH : Z := 4096.  (* header_block_decoder.cpp:16 *)

(** string_length_within_limit, header_block_decoder.cpp:54-61. *)
Definition string_length_within_limit (size : Z) : bool := negb (size >? MAX_HEADER_STRING_LENGTH).

Section Decoder.
  Variable tree : tree.  (* huffman_tree_, populated by the constructor (header_block_decoder.cpp:25-28) *)

  (** decode_huffman_string, header_block_decoder.cpp:63-73.  [data] is exactly [size] octets long, so
      data.subspan(0, size) is [data]. *)
  Definition decode_huffman_string (data : bytes) : out (expected frame_error bytes) :=
    let! res := huffman_decode tree data in
    match res with
    | Error _ => Ret (Error ProtocolError)
    | Val s => if string_length_within_limit (lenZ s) then Ret (Val s) else Ret (Error ProtocolError)
    end.

  (** read_string, header_block_decoder.cpp:75-85. *)
  Definition read_string (is_huffman : bool) (size : Z) (data : bytes)
      : out (expected frame_error bytes) :=
    if is_huffman then decode_huffman_string data
    else if string_length_within_limit size then Ret (Val data)
    else Ret (Error ProtocolError).

  (** read_length_and_string, header_block_decoder.cpp:30-52. *)
  Definition read_length_and_string (r : reader) : out (expected frame_error bytes * reader) :=
    match peek_byte r with
    | None => Ret (Error ProtocolError, r)
    | Some length_byte =>
      let is_huffman := negb (Z.land length_byte 128 =? 0) in
      match int_decode 7 r with
      | (Error _, r1) => Ret (Error ProtocolError, r1)
      | (Val str_size, r1) =>
        match read_bytes r1 str_size with
        | None => Ret (Error ProtocolError, r1)
        | Some (data, r2) =>
          let! s := read_string is_huffman str_size data in Ret (s, r2)
        end
      end
    end.

  (** read_indexed_header, header_block_decoder.cpp:87-108 (size_t arithmetic). *)
  Definition read_indexed_header (t : dyn_table) (index : Z) : out (expected frame_error header) :=
    let table_index := u64 (index - 1) in
    if table_index <? lenZ STATIC_TABLE then
      match nth_error STATIC_TABLE (Z.to_nat table_index) with
      | Some h => Ret (Val h)
      | None => Undef
      end
    else
      let dynamic_index := u64 (table_index - lenZ STATIC_TABLE) in
      if dynamic_index >=? dt_count t then Ret (Error ProtocolError)
      else let! h := dt_get t dynamic_index in Ret (Val h).

  (** read_indexed_header_name, header_block_decoder.cpp:110-131. *)
  Definition read_indexed_header_name (t : dyn_table) (index : Z)
      : out (expected frame_error bytes) :=
    let table_index := u64 (index - 1) in
    if table_index <? lenZ STATIC_TABLE then
      match nth_error STATIC_TABLE (Z.to_nat table_index) with
      | Some h => Ret (Val (h_name h))
      | None => Undef
      end
    else
      let dynamic_index := u64 (table_index - lenZ STATIC_TABLE) in
      if dynamic_index >=? dt_count t then Ret (Error ProtocolError)
      else let! h := dt_get t dynamic_index in Ret (Val (h_name h)).

  (** decode_indexed_field, header_block_decoder.cpp:133-144.  A failed integer decode is only logged; then
      [*index] reads the value of an expected that holds an error: undefined. *)
  Definition decode_indexed_field (t : dyn_table) (r : reader)
      : out (expected frame_error header * reader) :=
    match int_decode 7 r with
    | (Error _, _) => Undef
    | (Val index, r1) =>
      if index <? 1 then Ret (Error ProtocolError, r1)
      else let! h := read_indexed_header t index in Ret (h, r1)
    end.

  (** decode_literal_field, header_block_decoder.cpp:146-167.  Same defect as above. *)
  Definition decode_literal_field (idx_prefix_bits : Z) (t : dyn_table) (r : reader)
      : out (expected frame_error header * reader) :=
    match int_decode idx_prefix_bits r with
    | (Error _, _) => Undef
    | (Val index, r1) =>
      let! (name, r2) :=
        if index =? 0 then read_length_and_string r1
        else let! n := read_indexed_header_name t index in Ret (n, r1) in
      match name with
      | Error _ => Ret (Error ProtocolError, r2)
      | Val n =>
        let! (value, r3) := read_length_and_string r2 in
        match value with
        | Error _ => Ret (Error ProtocolError, r3)
        | Val v => Ret (Val (Hdr n v), r3)
        end
      end
    end.

  (** decode_dynamic_table_size_update, header_block_decoder.cpp:169-186. *)
  Definition decode_size_update (t : dyn_table) (r : reader)
      : out (expected frame_error dyn_table * reader) :=
    match int_decode 5 r with
    | (Error _, r1) => Ret (Error ProtocolError, r1)
    | (Val new_sz, r1) =>
      if new_sz >? HARD_TABLE_SIZE_LIMIT then Ret (Error ProtocolError, r1)
      else let! t' := dt_set_max t new_sz in Ret (Val t', r1)
    end.

  (** The loop of decode, header_block_decoder.cpp:193-236.  Returns the header list or the error together
      with the table as it is then.  Each round consumes at least one octet, so
      [length data] rounds suffice (proved). *)
  Fixpoint decode_loop (fuel : nat) (t : dyn_table) (r : reader) (hdrs : list header)
      : out (expected frame_error (list header) * dyn_table) :=
    match r with
    | [] => Ret (Val hdrs, t)
    | first_byte :: _ =>
      match fuel with
      | O => Fuel
      | S f =>
        match from_byte first_byte with
        | Indexed =>
          let! (res, r1) := decode_indexed_field t r in
          match res with
          | Val h => decode_loop f t r1 (hdrs ++ [h])
          | Error e => Ret (Error e, t)
          end
        | LiteralIncremental =>
          let! (res, r1) := decode_literal_field 6 t r in
          match res with
          | Val h => let! t1 := dt_insert t h in decode_loop f t1 r1 (hdrs ++ [h])
          | Error e => Ret (Error e, t)
          end
        | LiteralNoIndex | LiteralNeverIndex =>
          let! (res, r1) := decode_literal_field 4 t r in
          match res with
          | Val h => decode_loop f t r1 (hdrs ++ [h])
          | Error e => Ret (Error e, t)
          end
        | SizeUpdate =>
          let! (res, r1) := decode_size_update t r in
          match res with
          | Val t1 => decode_loop f t1 r1 hdrs
          | Error e => Ret (Error e, t)
          end
        | Invalid => Ret (Error ProtocolError, t)
        end
      end
    end.

  (** HeaderBlockDecoder::decode, header_block_decoder.cpp:188-237. *)
  Definition hpack_decode (t : dyn_table) (data : bytes)
      : out (expected frame_error (list header) * dyn_table) :=
    decode_loop (length data) t data [].
End Decoder.

(** Header blocks of one connection, decoded in order with one decoder until one is
    refused (the connection then enters its error state, http2_conn.cpp:257-261). *)
Fixpoint decode_seq (T : tree) (t : dyn_table) (blocks : list bytes)
    : out (expected frame_error (list (list header)) * dyn_table) :=
  match blocks with
  | [] => Ret (Val [], t)
  | b :: bs =>
    let! (res, t1) := hpack_decode T t b in
    match res with
    | Error e => Ret (Error e, t1)
    | Val hs =>
      let! (res2, t2) := decode_seq T t1 bs in
      match res2 with
      | Error e => Ret (Error e, t2)
      | Val hss => Ret (Val (hs :: hss), t2)
      end
    end
  end.

(** The tables a connection's decoder can have: those left by any sequence of accepted
    blocks, starting from the table of header_block_decoder.h / dynamic_table.h:12. *)
Definition reachable_table (T : tree) (t : dyn_table) : Prop :=
  exists blocks hss, Forall all_bytes blocks /\
    decode_seq T (dt_init DEFAULT_MAX_TABLE_SIZE) blocks = Ret (Val hss, t).

