(** Properties C01-C03: HPACK integers. Statements only; proofs are in IntProofs.v. *)
From Verif Require Import Base BaseLemmas SpecInt IntCodec IntProofs.

(** C01. Encode, put any flag bits above the prefix and any octets behind, decode:
    same value, reader exactly behind the encoded octets. *)
Theorem C01_int_round_trip : forall N v flags suffix,
  1 <= N <= 8 -> 0 <= v < 2 ^ 32 -> 0 <= flags < 256 -> flags mod 2 ^ N = 0 ->
  exists b rest, int_encode v N = Ret (b :: rest) /\
    int_decode N ((flags + b) :: rest ++ suffix) = (Val v, suffix).
Proof. exact int_roundtrip. Qed.
Print Assumptions C01_int_round_trip.

Example C01_example :
  1 <= 5 <= 8 /\ 0 <= 1337 < 2 ^ 32 /\ 0 <= 224 < 256 /\ 224 mod 2 ^ 5 = 0 /\
  int_encode 1337 5 = Ret [31; 154; 10] /\
  int_decode 5 ([224 + 31; 154; 10] ++ [7; 8]) = (Val 1337, [7; 8]).
Proof. repeat split; try (cbn; lia). Qed.

(** C02. What each outcome of the decoder means, in terms of RFC 7541, 5.1. *)
Theorem C02_int_decode_exact : forall N r,
  1 <= N <= 8 -> all_bytes r ->
  match int_decode N r with
  | (Val v, rest) => exists used, r = used ++ rest /\ rfc_int N used v /\
      v < 2 ^ 32 /\ lenZ used <= 6
  | (Error NotEnoughBytes, _) =>
      forall used rest v, r = used ++ rest -> ~ rfc_int N used v
  | (Error IntegerOverflow, _) =>
      forall used rest v, r = used ++ rest -> rfc_int N used v -> 2 ^ 32 <= v
  | (Error TooManyContinuationBytes, _) =>
      forall used rest v, r = used ++ rest -> rfc_int N used v -> 6 < lenZ used
  end.
Proof. exact int_decode_outcome. Qed.
Print Assumptions C02_int_decode_exact.

(** Conversely every representation of a 32-bit value in at most six octets is
    decoded, so the errors above are never spurious. *)
Theorem C02_int_decode_complete : forall N used v rest,
  1 <= N <= 8 -> rfc_int N used v -> v < 2 ^ 32 -> lenZ used <= 6 ->
  int_decode N (used ++ rest) = (Val v, rest).
Proof. exact int_decode_complete. Qed.
Print Assumptions C02_int_decode_complete.

(** The reader only moves forward, by at most seven octets, whatever the outcome. *)
Theorem C02_int_decode_consumption : forall N r,
  exists used, r = used ++ snd (int_decode N r) /\ lenZ used <= 7.
Proof. exact int_decode_consumed. Qed.
Print Assumptions C02_int_decode_consumption.

Example C02_example_value :
  all_bytes [255; 255; 255; 255; 255; 15; 9] /\
  int_decode 4 [255; 240; 255; 255; 255; 15; 9] = (Val 4294967295, [9]) /\
  int_decode 4 [255; 241; 255; 255; 255; 15; 9] = (Error IntegerOverflow, [9]) /\
  int_decode 4 [255; 128; 128] = (Error NotEnoughBytes, []) /\
  int_decode 4 [255; 128; 128; 128; 128; 128; 0] = (Error TooManyContinuationBytes, []).
Proof.
  split; [repeat constructor; unfold is_byte; cbn; lia|]. repeat split.
Qed.

(** C03. One to six octets, first one inside the prefix, a correct representation
    and no shorter one exists. *)
Theorem C03_int_encode_minimal : forall N v,
  1 <= N <= 8 -> 0 <= v < 2 ^ 32 ->
  exists b rest, int_encode v N = Ret (b :: rest) /\ 0 <= b < 2 ^ N /\
    rfc_int N (b :: rest) v /\ lenZ (b :: rest) <= 6 /\
    (forall bs', rfc_int N bs' v -> lenZ (b :: rest) <= lenZ bs').
Proof. exact int_encode_spec. Qed.
Print Assumptions C03_int_encode_minimal.

Theorem C03_int_encode_bad_prefix : forall N v,
  0 <= N < 256 -> (int_encode v N = Throw <-> N = 0 \/ 8 < N).
Proof. exact int_encode_throws. Qed.
Print Assumptions C03_int_encode_bad_prefix.

Example C03_example :
  int_encode 4294967295 1 = Ret [1; 254; 255; 255; 255; 15] /\ int_encode 30 5 = Ret [30] /\
  int_encode 31 5 = Ret [31; 0] /\ int_encode 3 0 = Throw /\ int_encode 3 9 = Throw.
Proof. repeat split. Qed.
