(** Model of lib/hpack/bit_reader.h, bit_writer.h, huffman_tree.{h,cpp} and of the
    Huffman branch of HeaderBlockEncoder::write_length_and_string. *)
From Verif Require Import Base HuffmanTable.

(** class BitReader, bit_reader.h:5-25: the pair (data_, bit_pos_) is represented by
    the bits not yet read.  read_bit (12-20) takes bit [7 - bit_pos_ % 8] of octet
    [bit_pos_ / 8], so the bits of an octet come most significant first. *)
Definition octet_reader_bits (b : Z) : list bool :=
  map (fun bit_idx => Z.land (Z.shiftr b (7 - bit_idx)) 1 =? 1) [0; 1; 2; 3; 4; 5; 6; 7].
(** class BitReader, bit_reader.h:5-25, as its bits not yet read. *)
Definition bit_reader (data : bytes) : list bool := flat_map octet_reader_bits data.

(** class BitWriter, bit_writer.h:7-48. *)
Record bit_writer := BW { bw_buffer : bytes; bw_current : Z; bw_bits : Z }.
(** A new BitWriter, bit_writer.h:45-47. *)
Definition bw_init : bit_writer := BW [] 0 0.

(** BitWriter::write_bit, bit_writer.h:16-27. *)
Definition write_bit (bw : bit_writer) (bit : bool) : bit_writer :=
  let cur := if bit then u8 (Z.lor (bw_current bw) (Z.shiftl 1 (7 - bw_bits bw)))
             else bw_current bw in
  let n := u8 (bw_bits bw + 1) in
  if n =? 8 then BW (bw_buffer bw ++ [cur]) 0 0 else BW (bw_buffer bw) cur n.

(** BitWriter::write_bits, bit_writer.h:9-14. The argument counts down i+1. *)
Fixpoint write_bits_loop (i1 : nat) (value : Z) (bw : bit_writer) : bit_writer :=
  match i1 with
  | O => bw
  | S i =>
    write_bits_loop i value (write_bit bw (Z.land (Z.shiftr value (Z.of_nat i)) 1 =? 1))
  end.
(** BitWriter::write_bits, bit_writer.h:9-14, with the count of bits as given. *)
Definition write_bits (bw : bit_writer) (value bit_count : Z) : bit_writer :=
  write_bits_loop (Z.to_nat bit_count) value bw.

(** BitWriter::finalize, bit_writer.h:29-38. *)
Definition bw_finalize (bw : bit_writer) : bytes :=
  bw_buffer
    (if bw_bits bw >? 0
     then Nat.iter (Z.to_nat (8 - bw_bits bw)) (fun w => write_bit w true) bw
     else bw).

(** HUFFMAN_CODES[c] for [const char c], header_block_encoder.cpp:26.  The octet [c]
    is the value of the char as unsigned; where char is signed, a negative char
    converts to a huge index, which is outside the array. *)
Definition huffman_code_of_char (char_signed : bool) (c : Z) : out (Z * Z) :=
  let idx := if char_signed && (c >=? 128) then u64 (c - 256) else c in
  if idx <? lenZ HUFFMAN_CODES
  then match nth_error HUFFMAN_CODES (Z.to_nat idx) with Some e => Ret e | None => Undef end
  else Undef.

(** The loop and finalize() of header_block_encoder.cpp:24-29. *)
Fixpoint huffman_write (char_signed : bool) (s : bytes) (bw : bit_writer) : out bit_writer :=
  match s with
  | [] => Ret bw
  | c :: s' =>
    let! (code, len) := huffman_code_of_char char_signed c in
    huffman_write char_signed s' (write_bits bw code len)
  end.
(** header_block_encoder.cpp:24-29, beginning with a new BitWriter. *)
Definition huffman_encode (char_signed : bool) (s : bytes) : out bytes :=
  let! bw := huffman_write char_signed s bw_init in Ret (bw_finalize bw).

(** struct HuffmanNode, huffman_tree.h:10-18; [Null] is an empty unique_ptr. *)
Inductive tree :=
| Null
| Node (left right : tree) (symbol : option Z).

(** HuffmanTree::insert_symbol, huffman_tree.cpp:10-35.  [i1] is i+1; a null child
    is created on the way. *)
Fixpoint insert_at (i1 : nat) (symbol code : Z) (current : tree) : out tree :=
  let '(l, r, s) := match current with
                    | Null => (Null, Null, None)
                    | Node l r s => (l, r, s)
                    end in
  match i1 with
  | O => match s with
         | Some _ => Throw
         | None => Ret (Node l r (Some (u8 symbol)))
         end
  | S i =>
    if Z.land (Z.shiftr code (Z.of_nat i)) 1 =? 1
    then let! r' := insert_at i symbol code r in Ret (Node l r' s)
    else let! l' := insert_at i symbol code l in Ret (Node l' r s)
  end.
(** HuffmanTree::insert_symbol, huffman_tree.cpp:10-35, with the check of the length. *)
Definition insert_symbol (t : tree) (symbol code code_len : Z) : out tree :=
  if (code_len =? 0) || (code_len >? 31) then Throw
  else insert_at (Z.to_nat code_len) symbol code t.

(** populate_huffman_tree, header_block_decoder.cpp:18-23. *)
Fixpoint populate (i : Z) (codes : list (Z * Z)) (t : tree) : out tree :=
  match codes with
  | [] => Ret t
  | (code, len) :: rest => let! t' := insert_symbol t (u8 i) code len in populate (i + 1) rest t'
  end.
(** The tree of a HeaderBlockDecoder, header_block_decoder.cpp:18-28. *)
Definition huffman_tree : out tree := populate 0 HUFFMAN_CODES (Node Null Null None).

(** enum class HuffmanDecodeError, huffman_tree.h:20. *)
Inductive huffman_error := InvalidCode.

(** HuffmanTree::decode, huffman_tree.cpp:37-71. [result] is kept reversed. *)
Fixpoint huffman_loop (root current : tree) (bits : list bool) (result : bytes)
    : out (expected huffman_error bytes) :=
  match bits with
  | [] => Ret (Val (rev result))
  | bit :: bits' =>
    match current with
    | Null => Undef
    | Node l r _ =>
      let next := if bit then r else l in
      match next with
      | Null => if forallb (fun b => b) bits' then Ret (Val (rev result))
                else Ret (Error InvalidCode)
      | Node _ _ (Some s) => huffman_loop root root bits' (s :: result)
      | Node _ _ None => huffman_loop root next bits' result
      end
    end
  end.
(** HuffmanTree::decode, huffman_tree.cpp:37-71, from the root. *)
Definition huffman_decode (t : tree) (data : bytes) : out (expected huffman_error bytes) :=
  huffman_loop t t (bit_reader data) [].
