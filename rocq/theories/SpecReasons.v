(** Why a header block cannot be read on, and the words in which the console says so.
    Independent of the model. *)
From Verif Require Import Base SpecInt SpecHuffman SpecTable SpecHpack SpecConn.

(** [string_fault r text]: no string literal (RFC 7541, 5.2) within the server's limits starts
    [r], for the reason [text]. *)
Inductive string_fault : bytes -> bytes -> Prop :=
| fault_end : string_fault [] (str "Unexpected end of data while reading header length & string")
| fault_length : forall r, r <> [] -> ~ int_at 7 r -> string_fault r (str "Failed to decode string length integer")
| fault_short : forall ib n rest, p_rfc_int server_profile 7 ib n -> lenZ rest < n ->
    string_fault (ib ++ rest) (str "Insufficient data for string")
| fault_long : forall b ib s rest len, p_rfc_int server_profile 7 (b :: ib) (lenZ s) -> b < 128 ->
    4096 < lenZ s -> decimal len (lenZ s) ->
    string_fault ((b :: ib) ++ s ++ rest)
      (str "Header string length exceeds maximum allowed size (len: " ++ len ++ str ", max: 4096)")
| fault_long_decoded : forall b ib p s rest len, p_rfc_int server_profile 7 (b :: ib) (lenZ p) -> 128 <= b ->
    all_bytes s -> huff_lenient p s -> 4096 < lenZ s -> decimal len (lenZ s) ->
    string_fault ((b :: ib) ++ p ++ rest)
      (str "Header string length exceeds maximum allowed size (len: " ++ len ++ str ", max: 4096)")
| fault_padding : forall b ib p s ones more rest pos, p_rfc_int server_profile 7 (b :: ib) (lenZ p) -> 128 <= b ->
    all_bytes s -> payload_bits p = huff_bits s ++ EOS ++ ones ++ false :: more -> all_ones ones ->
    decimal pos (lenZ (huff_bits s ++ EOS ++ ones)) ->
    string_fault ((b :: ib) ++ p ++ rest)
      (str "remaining unmatched Huffman code is not padding: (bit pos = " ++ pos ++ str ")").

(** The first octet of a literal field and the size of its index prefix (6.2). *)
Definition literal_prefix (first N : Z) : Prop := (64 <= first < 128 /\ N = 6) \/ (0 <= first < 32 /\ N = 4).

(** [field_fault dyn r text]: with the entries [dyn] in the dynamic table, no representation
    within the server's limits starts [r], for the reason [text]. *)
Inductive field_fault (dyn : list header) : bytes -> bytes -> Prop :=
| fault_index_unread : forall first r, 128 <= first -> ~ int_at 7 (first :: r) ->
    field_fault dyn (first :: r) (str "failed to decode indexed header index (not enough bytes)")
| fault_zero : forall first ib rest, 128 <= first -> p_rfc_int server_profile 7 (first :: ib) 0 ->
    field_fault dyn ((first :: ib) ++ rest) (str "invalid header index (<1)")
| fault_index : forall first ib rest i idx sz, 128 <= first -> p_rfc_int server_profile 7 (first :: ib) i ->
    61 + lenZ dyn < i -> decimal idx i -> decimal sz (lenZ dyn) ->
    field_fault dyn ((first :: ib) ++ rest)
      (str "invalid dynamic table index lookup for header (idx: " ++ idx ++ str ", sz: " ++ sz ++ str ")")
| fault_name_unread : forall first r N, literal_prefix first N -> ~ int_at N (first :: r) ->
    field_fault dyn (first :: r) (str "failed to decode literal field index (not enough bytes)")
| fault_name_index : forall first N ib rest i idx sz, literal_prefix first N ->
    p_rfc_int server_profile N (first :: ib) i -> 61 + lenZ dyn < i -> decimal idx i -> decimal sz (lenZ dyn) ->
    field_fault dyn ((first :: ib) ++ rest)
      (str "invalid dynamic table index lookup for header name (idx: " ++ idx ++ str ", sz: " ++ sz ++ str ")")
| fault_name : forall first N ib rest text, literal_prefix first N ->
    p_rfc_int server_profile N (first :: ib) 0 -> string_fault rest text ->
    field_fault dyn ((first :: ib) ++ rest) text
| fault_value : forall first N nb n rest text, literal_prefix first N ->
    rfc_name server_profile N dyn (first :: nb) n -> string_fault rest text ->
    field_fault dyn ((first :: nb) ++ rest) text
| fault_update_unread : forall first r, 32 <= first < 64 -> ~ int_at 5 (first :: r) ->
    field_fault dyn (first :: r) (str "failed to decode dynamic table size update (not enough bytes)")
| fault_update : forall first ib rest n sz, 32 <= first < 64 -> p_rfc_int server_profile 5 (first :: ib) n ->
    65536 < n -> decimal sz n ->
    field_fault dyn ((first :: ib) ++ rest)
      (str "dynamic table size update exceeds hard limit (" ++ sz ++ str " > 65536)").
