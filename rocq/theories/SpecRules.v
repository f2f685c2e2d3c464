(** Rules of HTTP/2 (RFC 9113) for what a client sends: frames that are connection errors,
    stream identifiers, request fields, and the credit for request bodies.  Independent of
    the model. *)
From Verif Require Import Base SpecFrames Http SpecConn SpecFlow.

(** ** Connection errors *)
(** The stream of a field block that is not complete yet after the given frames (4.3). *)
Definition open_block (before : list wframe) : option Z :=
  match rev before with
  | f :: _ => if ((w_type f =? 1) || (w_type f =? 9)) && negb (Z.testbit (w_flags f) 2) then Some (w_stream f) else None
  | [] => None
  end.
(** No stream with this number or a higher one was opened (5.1.1). *)
Definition idle (before : list wframe) (s : Z) : Prop := forall f, In f before -> w_type f = 1 -> w_stream f < s.
(** Values that 6.5.2 forbids: ENABLE_PUSH, INITIAL_WINDOW_SIZE, MAX_FRAME_SIZE. *)
Definition bad_setting (e : Z * Z) : Prop :=
  (fst e = 2 /\ 1 < snd e) \/ (fst e = 4 /\ 2 ^ 31 <= snd e) \/ (fst e = 5 /\ (snd e < 16384 \/ 2 ^ 24 <= snd e)).

(** Frames, but for HEADERS, with which a client commits a connection error after the frames
    [before].  Types: 0 DATA, 2 PRIORITY, 3 RST_STREAM, 4 SETTINGS, 5 PUSH_PROMISE, 6 PING,
    7 GOAWAY, 8 WINDOW_UPDATE, 9 CONTINUATION. *)
Inductive connection_error (before : list wframe) (f : wframe) : Prop :=
| ce_not_settings : before = [] -> w_type f <> 4 -> connection_error before f                                          (* 3.4 *)
| ce_no_stream : In (w_type f) [0; 2; 3; 9] -> w_stream f = 0 -> connection_error before f                             (* 6.1, 6.3, 6.4, 6.10 *)
| ce_stream : In (w_type f) [4; 6; 7] -> w_stream f <> 0 -> connection_error before f                                  (* 6.5, 6.7, 6.8 *)
| ce_idle : In (w_type f) [0; 3; 8] -> w_stream f <> 0 -> idle before (w_stream f) -> connection_error before f        (* 5.1 *)
| ce_interrupted : forall s, open_block before = Some s -> w_type f <> 9 \/ w_stream f <> s -> connection_error before f (* 4.3 *)
| ce_continuation : open_block before = None -> w_type f = 9 -> connection_error before f                              (* 6.10 *)
| ce_settings_ack : w_type f = 4 -> Z.testbit (w_flags f) 0 = true -> w_payload f <> [] -> connection_error before f   (* 6.5 *)
| ce_settings_size : w_type f = 4 -> Z.testbit (w_flags f) 0 = false -> lenZ (w_payload f) mod 6 <> 0 -> connection_error before f (* 6.5 *)
| ce_settings_value : forall es e, w_type f = 4 -> Z.testbit (w_flags f) 0 = false -> settings_payload (w_payload f) es ->
    In e es -> bad_setting e -> connection_error before f                                                              (* 6.5.2 *)
| ce_reset_size : w_type f = 3 -> lenZ (w_payload f) <> 4 -> connection_error before f                                 (* 6.4 *)
| ce_push : w_type f = 5 -> connection_error before f                                                                  (* 8.4 *)
| ce_ping_size : w_type f = 6 -> lenZ (w_payload f) <> 8 -> connection_error before f                                  (* 6.7 *)
| ce_goaway_size : w_type f = 7 -> lenZ (w_payload f) < 8 -> connection_error before f                                 (* 4.2, 6.8 *)
| ce_window_size : w_type f = 8 -> lenZ (w_payload f) <> 4 -> connection_error before f                                (* 6.9 *)
| ce_window_zero : w_type f = 8 -> w_stream f = 0 -> be (w_payload f) mod 2 ^ 31 = 0 -> connection_error before f.     (* 6.9 *)

(** What the frame would be if it broke no rule: an acknowledgement or a SETTINGS frame
    without entries, or no frame at all. *)
Definition corrected (f : wframe) : list wframe :=
  if w_type f =? 4 then [WFrame 4 (if Z.testbit (w_flags f) 0 then 1 else 0) 0 []] else [].

(** ** Stream identifiers *)
(** HEADERS frames that 5.1.1 and 6.2 forbid: on stream 0, on a stream a client cannot open,
    on one lower than another that it opened before. *)
Definition stream_error (before : list wframe) (f : wframe) : Prop :=
  w_type f = 1 /\
  (w_stream f = 0 \/ Z.even (w_stream f) = true \/
   ((forall g, In g before -> w_type g = 1 -> w_stream g <> w_stream f) /\ ~ idle before (w_stream f))).
(** The same frame with another stream, if it is a HEADERS or DATA frame. *)
Definition restream (rho : Z -> Z) (f : wframe) : wframe :=
  if (w_type f =? 1) || (w_type f =? 0) then WFrame (w_type f) (w_flags f) (rho (w_stream f)) (w_payload f) else f.
(** The same but for the streams.  There is no layout for HEADERS frames (type 1 in the
    fourth octet) of 2^24 octets and more. *)
Definition restreamed (rho : Z -> Z) (e e' : event) : Prop :=
  match e, e' with
  | EvQueue o, EvQueue o' =>
      (exists fs, frames_octets fs o /\ frames_octets (map (restream rho) fs) o') \/
      (2 ^ 24 <= lenZ o /\ nth 3 o 0 = 1 /\ lenZ o = lenZ o')
  | _, _ => e = e'
  end.

(** ** Requests (8.2, 8.3) *)
Definition pseudo (h : header) : Prop := exists r, h_name h = 58 :: r.
Definition name_octet (c : Z) : Prop := 33 <= c <= 126 /\ ~ (65 <= c <= 90) /\ c <> 58.
Definition name_ok (n : bytes) : Prop := n <> [] /\ Forall name_octet n.
Definition blank (c : Z) : Prop := c = 32 \/ c = 9.
Definition value_ok (v : bytes) : Prop :=
  ~ In 0 v /\ ~ In 10 v /\ ~ In 13 v /\ (forall c r, v = c :: r -> ~ blank c) /\ (forall c r, v = r ++ [c] -> ~ blank c).
Definition connection_specific : list bytes :=
  [str "connection"; str "proxy-connection"; str "keep-alive"; str "transfer-encoding"; str "upgrade"].
(** A request other than CONNECT. *)
Record well_formed_request (hs : list header) : Prop := {
  wf_order : exists ps rs, hs = ps ++ rs /\ Forall pseudo ps /\ Forall (fun h => ~ pseudo h) rs;
  wf_known : forall h, In h hs -> pseudo h -> In (h_name h) [str ":method"; str ":scheme"; str ":authority"; str ":path"];
  wf_once : forall h a b, hs = a ++ h :: b -> pseudo h -> no_field (a ++ b) (h_name h);
  wf_there : forall n, In n [str ":method"; str ":scheme"; str ":path"] -> exists v, In (Hdr n v) hs;
  wf_path : ~ In (Hdr (str ":path") []) hs;
  wf_names : forall h, In h hs -> ~ pseudo h -> name_ok (h_name h);
  wf_values : forall h, In h hs -> value_ok (h_value h);
  wf_connection : forall h, In h hs -> ~ In (h_name h) connection_specific;
  wf_te : forall v, In (Hdr (str "te") v) hs -> v = str "trailers" }.

(** The field blocks [bs] of the HEADERS frames among [ins]. *)
Definition blocks_of (ins : list wframe) (bs : list bytes) : Prop :=
  Forall2 (fun f b => headers_payload false (Z.testbit (w_flags f) 5) b (w_payload f)) (filter (fun f => w_type f =? 1) ins) bs.
(** The requests that the application gets to see for these field lists if it is asked
    about all that have a :method and a :path. *)
Inductive asked : list (list header) -> list request -> Prop :=
| asked_none : asked [] []
| asked_not : forall hs hss rqs, no_field hs (str ":path") \/ no_field hs (str ":method") -> asked hss rqs -> asked (hs :: hss) rqs
| asked_more : forall hs m p hss rqs, first_field hs (str ":method") m -> first_field hs (str ":path") p -> asked hss rqs ->
    asked (hs :: hss) (Request m p hs :: rqs).

(** ** Credit for request bodies (5.2, 6.9) *)
(** How much DATA the client may still send, on a stream and together. *)
Definition upload_window (s : Z) (h : list passed) : Z :=
  initial_size (by_server h) + increments s (by_server h) - data_on s (by_client h).
Definition upload_connection_window (h : list passed) : Z := 65535 + increments 0 (by_server h) - data_all (by_client h).
(** The client heeds them. *)
Definition client_heeds (h : list passed) : Prop :=
  forall a f b, h = a ++ ByClient f :: b -> w_type f = 0 ->
    lenZ (w_payload f) <= upload_window (w_stream f) a /\ lenZ (w_payload f) <= upload_connection_window a.

(** ** Reading *)
(** The octets [o] are all that the transport delivers in answer to the reads [rd], up to
    the first read that finds nothing after them: an error, or the end of what is known. *)
Definition drained (rd : list (Z * rd_result)) (o : bytes) : Prop :=
  exists l rest, rd = l ++ rest /\ available l = o /\ (rest = [] \/ exists l' t e, l = l' ++ [(t, RdErr e)]).

(** ** Lengths (RFC 9110, 8.6) *)
Definition lengths (hs : list header) : list bytes := map h_value (filter (fun h => bytes_eqb (h_name h) (str "content-length")) hs).
