(** RFC 9113 section 4.1 and 6: frame layout.  Independent of the model. *)
From Verif Require Import Base.

(** Network byte order. *)
Fixpoint be (d : bytes) : Z :=
  match d with
  | [] => 0
  | b :: r => b * 256 ^ lenZ r + be r
  end.

(** The fields of a frame header and its nine octets [o]; the reserved bit [r] may
    have either value. *)
Definition frame_header_octets (len typ flags stream : Z) (o : bytes) : Prop :=
  exists l s r, o = l ++ [typ; flags] ++ s /\ all_bytes o /\
    lenZ l = 3 /\ be l = len /\
    lenZ s = 4 /\ (r = 0 \/ r = 1) /\ be s = r * 2 ^ 31 + stream /\ 0 <= stream < 2 ^ 31.

(** The HEADERS payload of section 6.2: pad length, priority fields, fragment,
    padding. *)
Definition headers_payload (padded priority : bool) (fragment payload : bytes) : Prop :=
  exists prio padding,
    payload = (if padded then [lenZ padding] else []) ++ prio ++ fragment ++ padding /\
    lenZ prio = (if priority then 5 else 0) /\ lenZ padding < 256 /\
    (padded = false -> padding = []).

(** SETTINGS payload of section 6.5.1: consecutive entries of a two-octet identifier
    and a four-octet value. *)
Inductive settings_payload : bytes -> list (Z * Z) -> Prop :=
| settings_none : settings_payload [] []
| settings_more : forall i v d es, lenZ i = 2 -> lenZ v = 4 -> settings_payload d es ->
    settings_payload (i ++ v ++ d) ((be i, be v) :: es).
