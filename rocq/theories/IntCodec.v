(** Model of lib/hpack/byte_reader.{h,cpp}, int_encoder.cpp and int_decoder.cpp. *)
From Verif Require Import Base.

(** class ByteReader (lib/hpack/byte_reader.h:9-27): the pair (data_, pos_) is
    represented by the octets not yet read, [data_.subspan(pos_)]. *)
Definition reader := bytes.

(** ByteReader::has_bytes, byte_reader.cpp:3-5.  [pos_ + count] cannot wrap:
    both are far below 2^63. *)
Definition has_bytes (r : reader) (count : Z) : bool := count <=? lenZ r.

(** ByteReader::read_byte, byte_reader.cpp:7-12. *)
Definition read_byte (r : reader) : option (Z * reader) :=
  match r with [] => None | b :: r' => Some (b, r') end.

(** ByteReader::peek_byte, byte_reader.cpp:14-19. *)
Definition peek_byte (r : reader) : option Z :=
  match r with [] => None | b :: _ => Some b end.

(** ByteReader::read_bytes, byte_reader.cpp:21-30. *)
Definition read_bytes (r : reader) (count : Z) : option (bytes * reader) :=
  if has_bytes r count
  then Some (firstn (Z.to_nat count) r, skipn (Z.to_nat count) r)
  else None.

(** The while loop and final push_back of IntegerEncoder::encode,
    int_encoder.cpp:20-25. *)
Fixpoint encode_cont (fuel : nat) (value : Z) : out bytes :=
  match fuel with
  | O => Fuel
  | S f =>
    if value >=? 128 then
      let! rest := encode_cont f (Z.shiftr value 7) in
      Ret (u8 (Z.lor (Z.land value 127) 128) :: rest)
    else Ret [u8 value]
  end.

(** IntegerEncoder::encode, int_encoder.cpp:7-27.  [value] is a uint32_t and
    [prefix_bits] a uint8_t.  Five rounds of the loop suffice for 32 bits
    (proved: [Fuel] is never returned). *)
Definition int_encode (value prefix_bits : Z) : out bytes :=
  if (prefix_bits =? 0) || (prefix_bits >? 8) then Throw
  else
    let max_prefix := Z.shiftl 1 prefix_bits - 1 in
    if value <? max_prefix then Ret [u8 value]
    else
      let! rest := encode_cont 5 (u32 (value - max_prefix)) in
      Ret (u8 max_prefix :: rest).

(** enum class IntegerDecodeError, int_decoder.h:8. *)
Inductive int_error := NotEnoughBytes | IntegerOverflow | TooManyContinuationBytes.

(** make_mask, int_decoder.cpp:7-15. *)
Definition make_mask (bits : Z) : Z :=
  if bits =? 0 then 0
  else if bits >=? 8 then 255
  else u8 (Z.shiftl 1 bits - 1).

(** The continuation loop of IntegerDecoder::decode, int_decoder.cpp:31-50. *)
Fixpoint decode_cont (r : reader) (sum shift : Z) : expected int_error Z * reader :=
  match r with  (* reader.read_byte() *)
  | [] => (Error NotEnoughBytes, r)
  | b :: r' =>
    let value := Z.land b 127 in
    if shift >? 28 then (Error TooManyContinuationBytes, r')
    else if value >? Z.shiftr (u32 (UINT32_MAX - sum)) shift then (Error IntegerOverflow, r')
    else
      let sum' := u32 (sum + u32 (Z.shiftl value shift)) in
      if Z.land b 128 =? 0 then (Val sum', r') else decode_cont r' sum' (shift + 7)
  end.

(** IntegerDecoder::decode, int_decoder.cpp:17-51. *)
Definition int_decode (prefix_bits : Z) (r : reader) : expected int_error Z * reader :=
  let mask := make_mask prefix_bits in
  match read_byte r with
  | None => (Error NotEnoughBytes, r)
  | Some (b, r') =>
    let prefix := Z.land b mask in
    if prefix =? mask then decode_cont r' prefix 0 else (Val prefix, r')
  end.
