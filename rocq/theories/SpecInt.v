(** RFC 7541, section 5.1: integer representation, as a relation between an
    octet string and the integer it denotes.  Independent of the model. *)
From Verif Require Import Base.

(** Continuation octets: 7 payload bits each, least significant group first; the
    top bit is set on every octet but the last. *)
Inductive cont_val : bytes -> Z -> Prop :=
| cont_last : forall b, 0 <= b < 128 -> cont_val [b] b
| cont_more : forall b bs v,
    128 <= b < 256 -> cont_val bs v -> cont_val (b :: bs) ((b - 128) + 128 * v).

(** [rfc_int N bs v]: the octets [bs] are exactly an N-bit-prefix representation
    of [v]. Bits of the first octet above the prefix are not constrained. *)
Inductive rfc_int (N : Z) : bytes -> Z -> Prop :=
| int_short : forall b,
    is_byte b -> b mod 2 ^ N < 2 ^ N - 1 -> rfc_int N [b] (b mod 2 ^ N)
| int_long : forall b bs w,
    is_byte b -> b mod 2 ^ N = 2 ^ N - 1 -> cont_val bs w ->
    rfc_int N (b :: bs) (2 ^ N - 1 + w).
