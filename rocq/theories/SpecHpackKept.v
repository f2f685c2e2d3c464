(** What a client whose table is smaller than the server's can still read.  Independent
    of the model. *)
From Verif Require Import Base SpecTable SpecHpack SpecHpackEnc.

(** [dyn] is the server's table when field [h] is sent.  The client has the newest
    entries that fit into [m] octets.  The field is in the static table, or among those
    entries, or it is new to the server and its name is in the static table, or written
    out, or that of an entry that the client has too. *)
Definition kept_field (m : Z) (dyn : list header) (h : header) : Prop :=
  In h rfc_static \/
  In h (fit m dyn) \/
  (~ In h dyn /\
   (static_name (h_name h) \/
    (forall x, In x dyn -> h_name x <> h_name h) \/
    (exists x, In x (fit m dyn) /\ h_name x = h_name h))).

(** Every field of a list is, when its turn comes; [max] is the server's limit. *)
Fixpoint all_kept (m max : Z) (dyn : list header) (hs : list header) : Prop :=
  match hs with
  | [] => True
  | h :: rest => kept_field m dyn h /\ all_kept m max (after_field max dyn h) rest
  end.

(** A field that is still in the server's table is among the newest 65 entries, and among
    those the client has. *)
Definition at_hand (m : Z) (dyn : list header) (h : header) : Prop :=
  In h dyn -> In h (firstn 65 dyn) /\ In h (fit m dyn).
(** Every field of a list is, when its turn comes. *)
Definition all_at_hand (m max : Z) (hs : list header) : Prop :=
  forall before h after, hs = before ++ h :: after -> at_hand m (fold_left (after_field max) before []) h.
