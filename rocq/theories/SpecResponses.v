(** Rules of HTTP for the responses a server sends (RFC 9113 sections 8.1, 8.2 and 8.3.2,
    RFC 9110 section 15).  Independent of the model. *)
From Verif Require Import Base Http SpecRules.

(** A regular field that a response may have. *)
Definition field_ok (h : header) : Prop :=
  name_ok (h_name h) /\ value_ok (h_value h) /\ ~ In (h_name h) connection_specific.
(** Status codes whose responses have no content. *)
Definition no_content (status : bytes) : Prop := status = str "204" \/ status = str "304".
(** The header fields and the content of a final response: one pseudo-field, :status, which
    comes first and is a number from 200 to 599. *)
Record well_formed_response (hs : list header) (body : bytes) : Prop := {
  wr_fields : exists a b c rest, hs = Hdr (str ":status") [a; b; c] :: rest /\
    50 <= a <= 53 /\ 48 <= b <= 57 /\ 48 <= c <= 57 /\ Forall field_ok rest /\
    (no_content [a; b; c] -> body = [])
}.
