(** Common vocabulary of the model: C++ integers, octets, strings, outcomes.

    C++ unsigned integers are [Z] values; every operation that may wrap in C++ is
    written with an explicit reduction ([u8], [u32], [u64]).
    Octets are [Z] values satisfying [is_byte]. *)
From Coq Require Export ZArith String Ascii Bool List Lia.
Export ListNotations.
Open Scope bool_scope.
Open Scope list_scope.
Open Scope Z_scope.

(** std::vector<uint8_t>, std::span<const uint8_t>, std::string, as octets (e.g. http_response.h:11). *)
Definition bytes := list Z.

(** The values of a uint8_t (e.g. http_response.h:11). *)
Definition is_byte (b : Z) : Prop := 0 <= b < 256.
(** Octets only. *)
Definition all_bytes (l : bytes) : Prop := Forall is_byte l.

(** static_cast to unsigned types. *)
Definition u8 (x : Z) : Z := x mod 256.
(** Conversion to uint32_t (e.g. http2_frames.h:12-13). *)
Definition u32 (x : Z) : Z := x mod 4294967296.
(** Conversion to uint64_t or size_t (e.g. dynamic_table.cpp:79-81). *)
Definition u64 (x : Z) : Z := x mod 18446744073709551616.
(** <cstdint>; used in int_decoder.cpp:17-51. *)
Definition UINT32_MAX : Z := 4294967295.

(** Length of a container as a C++ [size_t]. *)
Definition lenZ {A} (l : list A) : Z := Z.of_nat (length l).

(** Octets of a source string literal. *)
Definition str (s : string) : bytes :=
  map (fun c => Z.of_N (N_of_ascii c)) (list_ascii_of_string s).

(** std::string / std::vector<uint8_t> equality. *)
Fixpoint bytes_eqb (a b : bytes) : bool :=
  match a, b with
  | [], [] => true
  | x :: a', y :: b' => (x =? y) && bytes_eqb a' b'
  | _, _ => false
  end.

(** Result of running a piece of C++:
    - [Ret a]: returned [a];
    - [Throw]: a [std::exception] left the function;
    - [Undef]: the execution has undefined behaviour;
    - [Fuel]: the recursion budget of the model ran out (never happens: proved). *)
Inductive out (A : Type) : Type :=
| Ret (a : A)
| Throw
| Undef
| Fuel.
Arguments Ret {A} a.
Arguments Throw {A}.
Arguments Undef {A}.
Arguments Fuel {A}.

(** Running one piece of C++ after another: whatever is not a return ends it. *)
Definition obind {A B} (x : out A) (f : A -> out B) : out B :=
  match x with
  | Ret a => f a
  | Throw => Throw
  | Undef => Undef
  | Fuel => Fuel
  end.
Notation "'let!' x ':=' e1 'in' e2" := (obind e1 (fun x => e2))
  (at level 200, x pattern, e1 at level 100, e2 at level 200, right associativity).

(** std::expected<A, E>. *)
Inductive expected (E A : Type) : Type :=
| Val (a : A)
| Error (e : E).
Arguments Val {E A} a.
Arguments Error {E A} e.

(** struct HttpHeader (lib/hpack/http_header.h). *)
Record header := Hdr { h_name : bytes; h_value : bytes }.

(** operator== of HttpHeader, http_header.h:6-9. *)
Definition header_eqb (a b : header) : bool :=
  bytes_eqb (h_name a) (h_name b) && bytes_eqb (h_value a) (h_value b).

(** std::to_string for non-negative integers: decimal digits, most significant
    first.  The recursion budget is the bit length of the number, which is at
    least the number of digits. *)
Fixpoint to_digits (fuel : nat) (n : Z) (acc : bytes) : bytes :=
  match fuel with
  | O => acc
  | S f =>
    let acc' := (48 + n mod 10) :: acc in
    if n <? 10 then acc' else to_digits f (n / 10) acc'
  end.
(** std::to_string (e.g. http2_conn.cpp:471,473). *)
Definition to_string (n : Z) : bytes :=
  to_digits (S (Z.to_nat (Z.log2 n))) n [].
