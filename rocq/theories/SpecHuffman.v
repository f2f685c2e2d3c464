(** RFC 7541, section 5.2 and appendix B: the Huffman code, as the canonical code of
    the code lengths of appendix B.  Independent of the model and of the code table
    in the sources. *)
From Verif Require Import Base.

(** Code lengths of the octets 0..255 (RFC 7541, appendix B). *)
Definition rfc_lengths : list Z := [
  13; 23; 28; 28; 28; 28; 28; 28; 28; 24; 30; 28; 28; 30; 28; 28;
  28; 28; 28; 28; 28; 28; 30; 28; 28; 28; 28; 28; 28; 28; 28; 28;
  6; 10; 10; 12; 13; 6; 8; 11; 10; 10; 8; 11; 8; 6; 6; 6;
  5; 5; 5; 6; 6; 6; 6; 6; 6; 6; 7; 8; 15; 6; 12; 10;
  13; 6; 7; 7; 7; 7; 7; 7; 7; 7; 7; 7; 7; 7; 7; 7;
  7; 7; 7; 7; 7; 7; 7; 7; 8; 7; 8; 13; 19; 13; 14; 6;
  15; 5; 6; 5; 6; 5; 6; 6; 6; 5; 7; 7; 6; 6; 6; 5;
  6; 7; 6; 5; 5; 6; 7; 7; 7; 7; 7; 15; 11; 14; 13; 28;
  20; 22; 20; 20; 22; 22; 22; 23; 22; 23; 23; 23; 23; 23; 24; 23;
  24; 24; 22; 23; 24; 23; 23; 23; 23; 21; 22; 23; 22; 23; 23; 24;
  22; 21; 20; 22; 22; 23; 23; 21; 23; 22; 22; 24; 21; 22; 23; 23;
  21; 21; 22; 21; 23; 22; 23; 23; 20; 22; 22; 22; 23; 22; 22; 23;
  26; 26; 20; 19; 22; 23; 22; 25; 26; 26; 26; 27; 27; 26; 24; 25;
  19; 21; 26; 27; 27; 26; 27; 24; 21; 21; 26; 26; 28; 27; 27; 27;
  20; 24; 20; 21; 22; 21; 21; 23; 22; 22; 25; 25; 24; 24; 26; 23;
  26; 27; 26; 26; 27; 27; 27; 27; 27; 28; 27; 27; 27; 27; 27; 26].

Definition code_len (s : Z) : Z := nth (Z.to_nat s) rfc_lengths 0.

(** Canonical order: shorter codes first, then by octet. *)
Definition precedes (t s : Z) : bool :=
  (code_len t <? code_len s) || (code_len t =? code_len s) && (t <? s).

Definition octets : list Z := map Z.of_nat (seq 0 256).

(** The canonical code of [s] is the number of [code_len s]-bit strings that start
    with the code of a preceding symbol. *)
Definition code_value (s : Z) : Z :=
  fold_right Z.add 0
    (map (fun t => if precedes t s then 2 ^ (code_len s - code_len t) else 0) octets).

(** The [n] low bits of [v], most significant first. *)
Fixpoint msb_bits (n : nat) (v : Z) : list bool :=
  match n with
  | O => []
  | S k => Z.testbit v (Z.of_nat k) :: msb_bits k v
  end.

Definition code_bits (s : Z) : list bool := msb_bits (Z.to_nat (code_len s)) (code_value s).
Definition huff_bits (s : bytes) : list bool := flat_map code_bits s.

Definition payload_bits (p : bytes) : list bool := flat_map (msb_bits 8) p.

Definition all_ones (l : list bool) : Prop := Forall (fun b => b = true) l.

(** The end-of-string code: thirty ones. *)
Definition EOS : list bool := repeat true 30.

(** RFC 7541, 5.2: [p] is a valid Huffman payload for [s]. *)
Definition huff_strict (p s : bytes) : Prop :=
  exists pad, payload_bits p = huff_bits s ++ pad /\ (length pad < 8)%nat /\ all_ones pad.

(** No symbol can be read from [tail]. *)
Definition no_symbol (tail : list bool) : Prop :=
  forall c rest, is_byte c -> tail <> code_bits c ++ rest.

(** What a decoder accepts that stops at the first place where no symbol can be
    read and only insists that nothing but ones follow an EOS code. *)
Definition huff_lenient (p s : bytes) : Prop :=
  exists tail, payload_bits p = huff_bits s ++ tail /\ no_symbol tail /\
    (forall rest, tail = EOS ++ rest -> all_ones rest).
