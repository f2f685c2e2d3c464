(** Flow control (RFC 9113 section 5.2 and 6.9) and split header blocks (6.10). *)
From Verif Require Import Base SpecFrames Http SpecConn.

(** Frames of both sides in the order in which they pass one point of the connection. *)
Inductive passed := ByClient (f : wframe) | ByServer (f : wframe).
Definition by_client (h : list passed) : list wframe := flat_map (fun x => match x with ByClient f => [f] | _ => [] end) h.
Definition by_server (h : list passed) : list wframe := flat_map (fun x => match x with ByServer f => [f] | _ => [] end) h.

Definition total (l : list Z) : Z := fold_right Z.add 0 l.
(** Octets of DATA frames, on one stream and together. *)
Definition data_of (f : wframe) : Z := if w_type f =? 0 then lenZ (w_payload f) else 0.
Definition data_on (s : Z) (fs : list wframe) : Z := total (map data_of (filter (fun f => w_stream f =? s) fs)).
Definition data_all (fs : list wframe) : Z := total (map data_of fs).
(** What WINDOW_UPDATE frames (type 8) on a stream add; stream 0 is the connection. *)
Definition increment (f : wframe) : Z := if w_type f =? 8 then be (firstn 4 (w_payload f)) mod 2 ^ 31 else 0.
Definition increments (s : Z) (fs : list wframe) : Z := total (map increment (filter (fun f => w_stream f =? s) fs)).
(** The initial window size (setting 4) in the client's SETTINGS frames; the last one
    counts, for all streams. *)
Fixpoint entries (n : nat) (p : bytes) : list (Z * Z) :=
  match n with
  | O => []
  | S k => (be (firstn 2 p), be (firstn 4 (skipn 2 p))) :: entries k (skipn 6 p)
  end.
Definition initial_sizes (f : wframe) : list Z :=
  if (w_type f =? 4) && negb (Z.testbit (w_flags f) 0)
  then map snd (filter (fun e => fst e =? 4) (entries (Z.to_nat (lenZ (w_payload f) / 6)) (w_payload f))) else [].
Definition initial_size (fs : list wframe) : Z := last (flat_map initial_sizes fs) 65535.

Definition stream_window (s : Z) (h : list passed) : Z :=
  initial_size (by_client h) + increments s (by_client h) - data_on s (by_server h).
Definition connection_window (h : list passed) : Z :=
  65535 + increments 0 (by_client h) - data_all (by_server h).
(** No DATA frame of the server is longer than either window. *)
Definition windows_honoured (h : list passed) : Prop :=
  forall a f b, h = a ++ ByServer f :: b -> w_type f = 0 ->
    lenZ (w_payload f) <= stream_window (w_stream f) a /\ lenZ (w_payload f) <= connection_window a.

(** The octets of the response bodies, for the requests on one stream and together: the
    transactions belong to the client's HEADERS frames one by one. *)
Definition body_octets (tx : transaction) : Z := lenZ (rs_body (tx_sent tx)).
Definition bodies_on (s : Z) (ins : list wframe) (txs : list transaction) : Z :=
  total (map (fun x => body_octets (snd x))
    (filter (fun x => w_stream (fst x) =? s) (combine (filter (fun f => w_type f =? 1) ins) txs))).
Definition bodies_all (txs : list transaction) : Z := total (map body_octets txs).

(** Two frames that say the same as far as field blocks, acknowledgements and the end of
    the connection are concerned; what they say about windows, priorities, settings, the end
    of streams and of field blocks may differ. *)
Inductive alike : wframe -> wframe -> Prop :=
| alike_same : forall f, alike f f
| alike_headers : forall fl fl' s block p p',
    headers_payload false (Z.testbit fl 5) block p -> headers_payload false (Z.testbit fl' 5) block p' ->
    alike (WFrame 1 fl s p) (WFrame 1 fl' s p')
| alike_settings : forall fl fl' s s' p p', Z.testbit fl 0 = Z.testbit fl' 0 ->
    (Z.testbit fl 0 = false -> lenZ p mod 6 = 0 <-> lenZ p' mod 6 = 0) -> alike (WFrame 4 fl s p) (WFrame 4 fl' s' p')
| alike_goaway : forall fl fl' s s' p p', alike (WFrame 7 fl s p) (WFrame 7 fl' s' p').
(** Frames that say nothing in this sense: all but HEADERS, SETTINGS and GOAWAY; a
    WINDOW_UPDATE frame holds four octets at least. *)
Definition says_nothing (f : wframe) : Prop := implemented f = false \/ (w_type f = 8 /\ 4 <= lenZ (w_payload f)).
(** Sequences of frames that say the same. *)
Inductive all_alike : list wframe -> list wframe -> Prop :=
| all_alike_nil : all_alike [] []
| all_alike_cons : forall f f' l l', alike f f' -> all_alike l l' -> all_alike (f :: l) (f' :: l')
| all_alike_left : forall f l l', says_nothing f -> all_alike l l' -> all_alike (f :: l) l'
| all_alike_right : forall f l l', says_nothing f -> all_alike l l' -> all_alike l (f :: l').

(** A field block cut into a HEADERS frame and at least one CONTINUATION frame (type 9) on
    the same stream; END_HEADERS (bit 2) is on the last one only.  [split_block]: [first] is
    the part in the HEADERS frame. *)
Inductive continued (s : Z) : bytes -> list wframe -> Prop :=
| continued_last : forall fl p, Z.testbit fl 2 = true -> continued s p [WFrame 9 fl s p]
| continued_more : forall fl p b l, Z.testbit fl 2 = false -> continued s b l -> continued s (p ++ b) (WFrame 9 fl s p :: l).
Inductive split_block (s : Z) (first rest : bytes) : list wframe -> Prop :=
| split_frames : forall fl p l, Z.testbit fl 2 = false -> Z.testbit fl 3 = false ->
    headers_payload false (Z.testbit fl 5) first p -> continued s rest l ->
    split_block s first rest (WFrame 1 fl s p :: l).
(** The same in one frame. *)
Inductive whole_block (s : Z) (block : bytes) : wframe -> Prop :=
| whole_frame : forall fl p, Z.testbit fl 2 = true -> Z.testbit fl 3 = false ->
    headers_payload false (Z.testbit fl 5) block p -> whole_block s block (WFrame 1 fl s p).
