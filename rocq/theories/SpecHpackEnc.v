(** What the response header encoder can represent correctly, in terms of header
    fields and the entries of the dynamic table (newest first).  Independent of the
    model. *)
From Verif Require Import Base SpecTable SpecHpack.

(** Strings the encoder can write: octets, shorter than 2^30; where plain char is
    signed, strings longer than three octets must be ASCII. *)
Definition string_ok (char_signed : bool) (s : bytes) : Prop :=
  all_bytes s /\ lenZ s < 2 ^ 30 /\
  (char_signed = true -> lenZ s <= 3 \/ Forall (fun c => c < 128) s).

Definition header_ok (char_signed : bool) (h : header) : Prop :=
  string_ok char_signed (h_name h) /\ string_ok char_signed (h_value h).

Definition static_name (n : bytes) : Prop := exists h, In h rfc_static /\ h_name h = n.

(** One-octet references reach 65 dynamic entries, and a dynamic entry can lend its
    name only while it is the newest one. *)
Definition reachable_field (dyn : list header) (h : header) : Prop :=
  In h rfc_static \/
  (exists i, (i <= 64)%nat /\ nth_error dyn i = Some h) \/
  (~ In h dyn /\
   (static_name (h_name h) \/
    (forall x, In x dyn -> h_name x <> h_name h) \/
    (exists x rest, dyn = x :: rest /\ h_name x = h_name h))).

(** The table after a field was sent: unchanged if the field was already in a table,
    otherwise the field is added and the oldest entries make room. *)
Definition in_tables (dyn : list header) (h : header) : bool :=
  existsb (header_eqb h) rfc_static || existsb (header_eqb h) dyn.
Definition after_field (max : Z) (dyn : list header) (h : header) : list header :=
  if in_tables dyn h then dyn else fit max (h :: dyn).

(** Every field of a list is reachable when its turn comes. *)
Fixpoint all_reachable (max : Z) (dyn : list header) (hs : list header) : Prop :=
  match hs with
  | [] => True
  | h :: rest => reachable_field dyn h /\ all_reachable max (after_field max dyn h) rest
  end.

(** The place of the newest entry that [p] holds of. *)
Definition newest_at (p : header -> Prop) (dyn : list header) (i : nat) : Prop :=
  (exists x, nth_error dyn i = Some x /\ p x) /\
  (forall j x, (j < i)%nat -> nth_error dyn j = Some x -> ~ p x).

(** Fields that are certainly not received as sent, whatever is sent after them: those
    in the dynamic table behind its first 65 entries, and those whose name is known only
    from an entry that is not the newest.  Of the latter, three kinds are left out (see
    PropHpackEnc.v), by the index [62 + i] of the entry. *)
Definition lost_field (dyn : list header) (h : header) : Prop :=
  ~ In h rfc_static /\
  ((exists i, newest_at (eq h) dyn i /\ (65 <= i)%nat) \/
   (~ In h dyn /\ ~ static_name (h_name h) /\
    exists i, newest_at (fun x => h_name x = h_name h) dyn i /\ (1 <= i)%nat /\
      let index := 62 + Z.of_nat i in
      (128 <= index mod 256 \/ 1 <= index mod 64 <= 62 \/
       (index mod 64 = 0 /\ h_value h <> h_name h) \/
       (index = 63 /\ h_value h <> [] /\
        forall j x, nth_error dyn j = Some x -> h_name x = h_name h -> j = 1%nat)))).
