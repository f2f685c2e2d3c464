(** Which parts of requests may show: fields whose names are in a list are public, the
    others are not. *)
From Verif Require Import Base SpecFrames SpecHpack Http SpecConn SpecRules.

Section Private.
  Variable public : list bytes.

  (** The same public fields in the same order, whatever stands between them. *)
  Inductive same_public : list header -> list header -> Prop :=
  | public_none : same_public [] []
  | public_both : forall h hs hs', same_public hs hs' -> same_public (h :: hs) (h :: hs')
  | public_left : forall h hs hs', ~ In (h_name h) public -> same_public hs hs' -> same_public (h :: hs) hs'
  | public_right : forall h hs hs', ~ In (h_name h) public -> same_public hs hs' -> same_public hs (h :: hs').

  (** Requests that differ in nothing public. *)
  Definition like_request (r r' : request) : Prop :=
    rq_method r = rq_method r' /\ rq_path r = rq_path r' /\ same_public (rq_headers r) (rq_headers r').
  (** An application that does not look at the other fields. *)
  Definition discreet {W} (app : request -> W -> W * app_answer) : Prop :=
    forall r r' w, like_request r r' -> app r w = app r' w.
End Private.

(** Frames that differ at most in what a HEADERS frame says. *)
Inductive like_frame : wframe -> wframe -> Prop :=
| like_same : forall f, like_frame f f
| like_headers : forall fl fl' s p p', like_frame (WFrame 1 fl s p) (WFrame 1 fl' s p').

(** What a client sends: whole frames of at most 16384 octets with field blocks that the
    server reads as the field lists [hss]. *)
Definition sends (ins : list wframe) (o : bytes) (hss : list (list header)) : Prop :=
  frames_octets ins o /\ Forall (fun f => all_bytes (w_payload f) /\ lenZ (w_payload f) <= 16384) ins /\
  exists bs st, blocks_of ins bs /\ rfc_blocks server_profile ([], 65536) bs hss st.

(** What a log line is made of. *)
Definition in_log : list bytes := [str ":method"; str ":path"; str "user-agent"; str "referer"].
