(** What an HTTP/2 connection should look like from outside: octets received, octets
    sent, requests and responses.  Independent of the model of the connection. *)
From Verif Require Import Base SpecFrames SpecTable SpecHpack SpecHpackEnc SpecHpackKept Http.

(** RFC 9113 section 3.4. *)
Definition rfc_preface : bytes :=
  [80; 82; 73; 32; 42; 32; 72; 84; 84; 80; 47; 50; 46; 48; 13; 10; 13; 10; 83; 77; 13; 10; 13; 10].

Record wframe := WFrame { w_type : Z; w_flags : Z; w_stream : Z; w_payload : bytes }.

(** A frame on the wire: nine octets of header announcing the length of the payload,
    then the payload. *)
Definition frame_octets (f : wframe) (o : bytes) : Prop :=
  exists h, o = h ++ w_payload f /\
    frame_header_octets (lenZ (w_payload f)) (w_type f) (w_flags f) (w_stream f) h.

Definition frames_octets (fs : list wframe) (o : bytes) : Prop :=
  exists os, Forall2 frame_octets fs os /\ o = concat os.

(** A decimal numeral without leading zeros. *)
Definition decimal (s : bytes) (n : Z) : Prop :=
  Forall (fun d => 48 <= d <= 57) s /\
  fold_left (fun v d => 10 * v + (d - 48)) s 0 = n /\
  match s with [] => False | d :: r => d = 48 -> r = [] end.

(** The first field with a given name. *)
Definition first_field (hs : list header) (n v : bytes) : Prop :=
  exists a b, hs = a ++ Hdr n v :: b /\ Forall (fun h => h_name h <> n) a.
Definition no_field (hs : list header) (n : bytes) : Prop := Forall (fun h => h_name h <> n) hs.

(** The header fields sent for a handler's response. *)
Definition response_fields (r : response) (fields : list header) : Prop :=
  exists status len,
    fields = Hdr (str ":status") status :: rs_headers r ++ len ++
             [Hdr (str "server") (str "ion"); Hdr (str "x-powered-by") (str "ion")] /\
    decimal status (rs_status r) /\
    (rs_body r = [] -> len = []) /\
    (rs_body r <> [] -> exists n, decimal n (lenZ (rs_body r)) /\ len = [Hdr (str "content-length") n]).

(** Frames of one response on a stream: HEADERS (flags END_HEADERS, and END_STREAM if
    there is no body), then DATA frames of 1 to 16256 octets, END_STREAM on the last. *)
Inductive data_frames (stream : Z) : bytes -> list wframe -> Prop :=
| data_last : forall c, 1 <= lenZ c <= 16256 -> data_frames stream c [WFrame 0 1 stream c]
| data_more : forall c body fs, 1 <= lenZ c <= 16256 -> data_frames stream body fs ->
    data_frames stream (c ++ body) (WFrame 0 0 stream c :: fs).

Inductive response_frames (stream : Z) (block : bytes) : bytes -> list wframe -> Prop :=
| response_empty : response_frames stream block [] [WFrame 1 5 stream block]
| response_body : forall body fs, data_frames stream body fs ->
    response_frames stream block body (WFrame 1 4 stream block :: fs).

(** One request and its response: the field block of the client's frame, the fields it
    stands for, what the application was asked and answered, and what is sent back. *)
Record transaction := Tx {
  tx_block : bytes;
  tx_fields : list header;
  tx_app : list (request * option response);
  tx_sent : response;
  tx_sent_block : bytes }.

(** How a field list is served.  A request without :path or :method never reaches the
    application. *)
Inductive served (hs : list header) : list (request * option response) -> response -> Prop :=
| served_incomplete : no_field hs (str ":path") \/ no_field hs (str ":method") ->
    served hs [] (Response 400 [] [])
| served_app : forall m p r fields,
    first_field hs (str ":method") m -> first_field hs (str ":path") p ->
    response_fields r fields ->
    served hs [(Request m p hs, Some r)] (Response (rs_status r) fields (rs_body r)).

(** [answered ins txs outs]: for the client frames [ins], in order, the server performs
    the transactions [txs] and sends the frames [outs]. *)
Inductive answered : list wframe -> list transaction -> list wframe -> Prop :=
| answered_none : answered [] [] []
| answered_settings : forall ins txs outs flags stream payload,
    answered ins txs outs -> Z.testbit flags 0 = false -> lenZ payload mod 6 = 0 ->
    answered (ins ++ [WFrame 4 flags stream payload]) txs (outs ++ [WFrame 4 1 0 []])
| answered_settings_ack : forall ins txs outs flags stream payload,
    answered ins txs outs -> Z.testbit flags 0 = true ->
    answered (ins ++ [WFrame 4 flags stream payload]) txs outs
| answered_headers : forall ins txs outs flags stream payload tx fs,
    answered ins txs outs ->
    headers_payload false (Z.testbit flags 5) (tx_block tx) payload ->
    served (tx_fields tx) (tx_app tx) (tx_sent tx) ->
    response_frames stream (tx_sent_block tx) (rs_body (tx_sent tx)) fs ->
    answered (ins ++ [WFrame 1 flags stream payload]) (txs ++ [tx]) (outs ++ fs)
| answered_other : forall ins txs outs f,
    answered ins txs outs -> w_type f <> 1 -> w_type f <> 4 -> w_type f <> 7 ->
    answered (ins ++ [f]) txs outs.

(** The server's own SETTINGS and GOAWAY frames. *)
Definition server_settings : wframe :=
  WFrame 4 0 0 [0; 3; 0; 0; 0; 100; 0; 4; 0; 0; 255; 255; 0; 5; 0; 0; 64; 0].
Definition goaway_frame (f : wframe) : Prop := w_type f = 7 /\ w_stream f = 0.

(** Time of the last successful handshake, read or write. *)
Fixpoint last_success (t0 : Z) (tr : trace) : Z :=
  match tr with
  | [] => t0
  | EvHandshake t :: r | EvRead t _ :: r | EvWrite t _ _ (Val _) :: r => last_success t r
  | _ :: r => last_success t0 r
  end.

(** Is the event a write? *)
Definition is_write (e : event) : bool := match e with EvWrite _ _ _ _ => true | _ => false end.

(** The transport told the server that the connection is over. *)
Definition fatal_read (e : event) : bool :=
  match e with EvReadError ConnectionClosed | EvReadError TransportProtocolError => true | _ => false end.

(** Responses a handler can give: a 16-bit status, encodable header fields (see
    SpecHpackEnc.v; [cs]: plain char is signed), a body that fits in memory. *)
Definition answer_ok (cs : bool) (r : response) : Prop :=
  0 <= rs_status r < 2 ^ 16 /\ lenZ (rs_body r) < 2 ^ 64 /\ Forall (header_ok cs) (rs_headers r).
Definition answers_ok {W} (cs : bool) (app : request -> W -> W * app_answer) : Prop :=
  forall rq w w' r, app rq w = (w', Answers r) -> answer_ok cs r.

(** No handshake failure, no end of stream or protocol error reported by the transport,
    no failed write ("would block" is not a failure). *)
Definition faultless (e : event) : Prop :=
  match e with
  | EvHandshakeError _ => False
  | EvReadError ConnectionClosed | EvReadError TransportProtocolError => False
  | EvWrite _ _ _ (Error x) => x = WantReadOrWrite
  | _ => True
  end.
Definition fault_free (tr : trace) : Prop := Forall faultless tr.

(** [handled others app w0 calls w]: starting from [w0], the application is given the
    requests of [calls] one after the other, with these answers; a handler that throws
    counts as an answer with status 500.  In between, its state changes as [others]
    allows. *)
Inductive handled {W : Type} (others : W -> W -> Prop) (app : request -> W -> W * app_answer) (w0 : W)
    : list (request * option response) -> W -> Prop :=
| handled_none : handled others app w0 [] w0
| handled_others : forall l w w', handled others app w0 l w -> others w w' -> handled others app w0 l w'
| handled_answers : forall l w rq w' r, handled others app w0 l w -> app rq w = (w', Answers r) ->
    handled others app w0 (l ++ [(rq, Some r)]) w'
| handled_fails : forall l w rq w', handled others app w0 l w -> app rq w = (w', Fails) ->
    handled others app w0 (l ++ [(rq, Some (Response 500 [] []))]) w'
| handled_escapes : forall l w rq w', handled others app w0 l w -> app rq w = (w', Escapes) ->
    handled others app w0 (l ++ [(rq, None)]) w'.

(** The frame header at the front of [o] announces [len] payload octets. *)
Definition announces (o : bytes) (len : Z) : Prop :=
  exists h typ flags stream r, o = h ++ r /\ frame_header_octets len typ flags stream h.

(** Too few octets for a whole frame, and not the start of an oversized one. *)
Definition partial_frame (rest : bytes) : Prop :=
  (forall f o r, frame_octets f o -> rest <> o ++ r) /\ (forall len, announces rest len -> len <= 16384).

(** Room enough for a block of header fields. *)
Definition block_bound (hs : list header) : Z :=
  fold_right (fun h n => 16 + 4 * (lenZ (h_name h) + lenZ (h_value h)) + n) 0 hs.

(** What an access log entry is made of: the request's fields, status and body size. *)
Definition log_entry (tx : transaction) : list header * Z * Z :=
  (tx_fields tx, rs_status (tx_sent tx), lenZ (rs_body (tx_sent tx))).

(** The whole life of a connection, from the preface on.  The client's frames [ins] have
    been handled, [rest] has not; there were the transactions [txs]; the server
    produced its SETTINGS frame, the frames [outs] that answer [ins] and the frames
    [byes].  The application was asked what the transactions say, and then [escaped].
    The request fields are what RFC 7541 says the client's field blocks mean (with the
    limits of [server_profile]); the blocks sent mean the response fields as long as
    those are reachable (C18), also for a client that keeps the default table size if they
    are few, and for one with a smaller table exactly if they are kept for it (C20); fields
    that are lost (C18) are not received; the blocks are not much longer than those fields.  The frame
    layout has room for blocks shorter than 2^24 octets only. *)
Record conversation {W : Type} (others : W -> W -> Prop) (app : request -> W -> W * app_answer) (w0 : W)
    (tr : trace) (ins : list wframe) (txs : list transaction) (outs byes : list wframe)
    (escaped : list (request * option response)) (rest : bytes) : Prop := {
  conv_received : exists o, frames_octets ins o /\ received tr = rfc_preface ++ o ++ rest;
  conv_small : Forall (fun f => lenZ (w_payload f) <= 16384) ins;
  conv_answered : answered ins txs outs;
  conv_sent : Forall (fun tx => lenZ (tx_sent_block tx) < 2 ^ 24) txs ->
    frames_octets (server_settings :: outs ++ byes) (queued tr);
  conv_requests : requests tr = concat (map tx_app txs) ++ escaped;
  conv_logged : logged tr = map log_entry txs;
  conv_decoded : exists st, rfc_blocks server_profile ([], 65536) (map tx_block txs) (map tx_fields txs) st;
  conv_encoded : all_reachable 65536 [] (concat (map (fun tx => rs_headers (tx_sent tx)) txs)) ->
    exists st, rfc_blocks (rfc_profile 65536) ([], 65536) (map tx_sent_block txs)
                 (map (fun tx => rs_headers (tx_sent tx)) txs) st;
  conv_default : forall D, (length D <= 65)%nat ->
    (forall x y, In x D -> In y D -> h_name x = h_name y -> ~ static_name (h_name x) -> x = y) ->
    NoDup D -> table_size D <= 4096 -> Forall (fun tx => incl (rs_headers (tx_sent tx)) D) txs ->
    exists st, rfc_blocks (rfc_profile 4096) ([], 4096) (map tx_sent_block txs)
                 (map (fun tx => rs_headers (tx_sent tx)) txs) st;
  conv_smaller : forall m, m <= 65536 -> all_reachable 65536 [] (concat (map (fun tx => rs_headers (tx_sent tx)) txs)) ->
    (all_kept m 65536 [] (concat (map (fun tx => rs_headers (tx_sent tx)) txs)) -> forall limit, exists st,
       rfc_blocks (rfc_profile limit) ([], m) (map tx_sent_block txs) (map (fun tx => rs_headers (tx_sent tx)) txs) st) /\
    (~ all_kept m 65536 [] (concat (map (fun tx => rs_headers (tx_sent tx)) txs)) -> forall limit hss st,
       ~ rfc_blocks (rfc_profile limit) ([], m) (map tx_sent_block txs) hss st);
  conv_lost : forall done before h after later, map (fun tx => rs_headers (tx_sent tx)) txs = done ++ (before ++ h :: after) :: later ->
    all_reachable 65536 [] (concat done ++ before) -> lost_field (fold_left (after_field 65536) (concat done ++ before) []) h ->
    forall m limit hss st, m <= 65536 -> rfc_blocks (rfc_profile limit) ([], m) (map tx_sent_block txs) hss st ->
    exists got later', hss = done ++ (before ++ got) :: later' /\ forall rest, got <> h :: rest;
  conv_sizes : Forall (fun tx => lenZ (tx_sent_block tx) <= block_bound (rs_headers (tx_sent tx))) txs;
  conv_handled : exists w, handled others app w0 (requests tr) w }.

(** The events that concern the client or the application, in order. *)
Definition visible (tr : trace) : trace :=
  filter (fun e => match e with EvQueue _ | EvRequest _ _ | EvLog _ _ _ => true | _ => false end) tr.

(** The server is done with the octets [x]: it has read them all and waits for more, or
    it read some of them and gave the connection up without the transport failing. *)
Definition done_with (x : bytes) (r : option result) (tr : trace) : Prop :=
  (r = Some WantRead /\ received tr = x) \/
  (r = Some DiscardConnection /\ fault_free tr /\ exists y, x = received tr ++ y).

(** Frame types the server implements: HEADERS, SETTINGS, GOAWAY, WINDOW_UPDATE. *)
Definition implemented (f : wframe) : bool :=
  (w_type f =? 1) || (w_type f =? 4) || (w_type f =? 7) || (w_type f =? 8).

(** Client frames on which the server gives up, after the transactions [txs]. *)
Inductive refused (txs : list transaction) (f : wframe) : Prop :=
| refused_settings : w_type f = 4 -> Z.testbit (w_flags f) 0 = false -> lenZ (w_payload f) mod 6 <> 0 -> refused txs f
| refused_goaway : w_type f = 7 -> refused txs f
| refused_headers : forall block, w_type f = 1 ->
    headers_payload false (Z.testbit (w_flags f) 5) block (w_payload f) ->
    (forall hss st, ~ rfc_blocks server_profile ([], 65536) (map tx_block txs ++ [block]) hss st) -> refused txs f.

(** Frames with fields that are cut off, or a header block in which an index cannot be
    read after the representations [r1]. *)
Inductive malformed (txs : list transaction) (f : wframe) : Prop :=
| malformed_window_update : w_type f = 8 -> lenZ (w_payload f) < 4 -> malformed txs f
| malformed_priority : w_type f = 1 -> Z.testbit (w_flags f) 5 = true -> lenZ (w_payload f) < 5 -> malformed txs f
| malformed_block : forall r1 r2 hss st, w_type f = 1 ->
    headers_payload false (Z.testbit (w_flags f) 5) (r1 ++ r2) (w_payload f) ->
    rfc_blocks server_profile ([], 65536) (map tx_block txs ++ [r1]) hss st -> bad_index r2 -> malformed txs f.

(** The octets the transport can deliver, whatever errors come between them. *)
Definition available (rd : list (Z * rd_result)) : bytes :=
  flat_map (fun x => match snd x with RdData o => o | RdErr _ => [] end) rd.

(** The application with its failures replaced by an empty response with status 500. *)
Definition recovering {W} (app : request -> W -> W * app_answer) (rq : request) (w : W) : W * app_answer :=
  match app rq w with
  | (w', Fails) => (w', Answers (Response 500 [] []))
  | x => x
  end.

(** Nothing was sent, asked or logged; at most a GOAWAY frame was produced and dropped
    with the connection. *)
Definition silent (r : option result) (tr : trace) : Prop :=
  delivered tr = [] /\ requests tr = [] /\ logged tr = [] /\
  (queued tr = [] \/ (r = Some DiscardConnection /\ exists g, goaway_frame g /\ frame_octets g (queued tr))).

(** Why a conversation ended although the transport did not fail: an oversized frame, a
    refused frame (all but GOAWAY are answered by a GOAWAY), or an exception that
    escaped from the application. *)
Definition ended_by (txs : list transaction) (byes : list wframe) (escaped : list (request * option response))
    (rest : bytes) : Prop :=
  (escaped = [] /\ byes <> [] /\ exists len, announces rest len /\ 16384 < len) \/
  (escaped = [] /\ exists f o r, rest = o ++ r /\ frame_octets f o /\ lenZ (w_payload f) <= 16384 /\ refused txs f /\
     (byes = [] <-> w_type f = 7)) \/
  (byes = [] /\ exists rq f o r, escaped = [(rq, None)] /\ rest = o ++ r /\ frame_octets f o /\ w_type f = 1).

(** The DATA frames [ds] carry [body]; END_STREAM (flag 1) is set on the last one. *)
Definition data_layout (stream : Z) (body : bytes) (ds : list wframe) : Prop :=
  concat (map w_payload ds) = body /\
  Forall (fun f => w_type f = 0 /\ w_stream f = stream /\ 1 <= lenZ (w_payload f) <= 16256) ds /\
  (ds <> [] -> exists ds' f, ds = ds' ++ [f] /\ w_flags f = 1 /\ Forall (fun f => w_flags f = 0) ds').
