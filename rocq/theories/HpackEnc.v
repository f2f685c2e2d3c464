(** Model of lib/hpack/header_block_encoder.cpp.  [cs] says whether plain [char] is
    signed (x86) or unsigned (most ARM ABIs). *)
From Verif Require Import Base StaticTable IntCodec Huffman DynTable.

Definition MAX_PLAIN_TEXT_STRING_LENGTH : Z := 3.  (* header_block_encoder.cpp:14 *)

(** write_length_and_string, header_block_encoder.cpp:19-51.  IntegerEncoder::encode takes a uint32_t, so the
    size_t length is truncated.  encoded_length[0] of an empty vector would be
    undefined. *)
Definition write_length_and_string (cs : bool) (s : bytes) : out bytes :=
  if lenZ s >? MAX_PLAIN_TEXT_STRING_LENGTH then
    let! bitstream := huffman_encode cs s in
    let! encoded_length := int_encode (u32 (lenZ bitstream)) 7 in
    match encoded_length with
    | [] => Undef
    | b :: rest => Ret (u8 (Z.lor 128 b) :: rest ++ bitstream)
    end
  else
    let! encoded_length := int_encode (u32 (lenZ s)) 7 in
    match encoded_length with
    | [] => Undef
    | b :: rest => Ret (b :: rest ++ s)
    end.

(** One round of the loop of HeaderBlockEncoder::encode, header_block_encoder.cpp:55-119. *)
Definition encode_header (cs : bool) (t : dyn_table) (hdr : header) : out (bytes * dyn_table) :=
  match find_index (fun x => bytes_eqb (h_name x) (h_name hdr) && bytes_eqb (h_value x) (h_value hdr))
          STATIC_TABLE with
  | Some table_index => Ret ([u8 (Z.lor (table_index + 1) 128)], t)
  | None =>
    match dt_find t hdr with
    | Some dyn_table_index =>
      Ret ([u8 (Z.lor (lenZ STATIC_TABLE + dyn_table_index + 1) 128)], t)
    | None =>
      match find_index (fun x => bytes_eqb (h_name x) (h_name hdr)) STATIC_TABLE with
      | Some table_index =>
        let! value := write_length_and_string cs (h_value hdr) in
        let! t' := dt_insert t hdr in
        Ret (u8 (Z.lor (table_index + 1) 64) :: value, t')
      | None =>
        match dt_find_name t (h_name hdr) with
        | Some dyn_table_index =>
          let! value := write_length_and_string cs (h_value hdr) in
          let! t' := dt_insert t hdr in
          Ret (u8 (Z.lor (lenZ STATIC_TABLE + dyn_table_index + 1) 64) :: value, t')
        | None =>
          let! name := write_length_and_string cs (h_name hdr) in
          let! value := write_length_and_string cs (h_value hdr) in
          let! t' := dt_insert t hdr in
          Ret (64 :: name ++ value, t')
        end
      end
    end
  end.

(** HeaderBlockEncoder::encode, header_block_encoder.cpp:53-121. *)
Fixpoint hpack_encode (cs : bool) (t : dyn_table) (headers : list header) : out (bytes * dyn_table) :=
  match headers with
  | [] => Ret ([], t)
  | hdr :: rest =>
    let! (b1, t1) := encode_header cs t hdr in
    let! (b2, t2) := hpack_encode cs t1 rest in
    Ret (b1 ++ b2, t2)
  end.

(** The header lists of a connection's responses, encoded in order with one encoder
    (process_frame, http2_conn.cpp:268). *)
Fixpoint encode_seq (cs : bool) (t : dyn_table) (hss : list (list header)) : out (list bytes * dyn_table) :=
  match hss with
  | [] => Ret ([], t)
  | hs :: rest =>
    let! (b, t1) := hpack_encode cs t hs in
    let! (bs, t2) := encode_seq cs t1 rest in
    Ret (b :: bs, t2)
  end.
