(** What the server keeps for its clients (C113). *)
From Verif Require Import Base SpecTable DynTable Http Conn SpecConn.

(** Room enough for an answer of the application as it is sent: its fields and those the
    server adds, its body, and a frame header for every 16256 octets of the body. *)
Definition answer_room (r : response) : Z :=
  774 + block_bound (rs_headers r) + lenZ (rs_body r) + 9 * (lenZ (rs_body r) / 16256 + 1).
(** No answer of the application takes more than [K] octets. *)
Definition answers_within {W} (app : request -> W -> W * app_answer) (K : Z) : Prop :=
  783 <= K /\ forall rq w w' r, app rq w = (w', Answers r) -> answer_room r <= K.

(** The octets kept for a connection between two calls: what was received and not yet
    handled, what is to be sent and was not yet taken, and the entries of both dynamic
    tables, counted as RFC 7541 section 4.1 does (32 octets for each entry on top). *)
Definition kept_octets (c : conn) : Z :=
  lenZ (c_rbuf c) + lenZ (c_wbuf c) + table_size (dt_table (c_dec c)) + table_size (dt_table (c_enc c)).
