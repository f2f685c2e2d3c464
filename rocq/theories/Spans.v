(** Model of the tracing of requests: the span of http2_conn.cpp:247-250 and 443-478, the
    trace marks of trace_id_flag.cpp, configure_telemetry of main.cpp:83-90 and
    telemetry.cpp.  A span is known by its name and attributes; its times, identifiers and
    its way to the collector are left to the OpenTelemetry library.  What the code computes
    meanwhile is taken from Conn.v, its messages from Messages.v. *)
From Verif Require Import Base IntCodec Huffman DynTable HpackDec HpackEnc Frames Http Conn AccessLog Messages.

(** An argument of SetAttribute, http2_conn.cpp:453-455,468. *)
Inductive attribute := AString (s : bytes) | AInt (n : Z).
(** A span, http2_conn.cpp:249. *)
Record span := Span { sp_name : bytes; sp_attributes : list (bytes * attribute) }.
(** What a connection gives to tracing and to the console, in order: messages while no span is
    active, and spans with the messages written while they are (scope, http2_conn.cpp:250).  A
    span ends with the case of the switch that starts it, also if an exception leaves it. *)
Inductive passage := Outside (m : message) | Inside (s : span) (ms : list message).

(** The messages of a passage. *)
Definition passage_messages (ps : list passage) : list message :=
  flat_map (fun p => match p with Outside m => [m] | Inside _ ms => ms end) ps.
(** The spans of a passage, http2_conn.cpp:249. *)
Definition passage_spans (ps : list passage) : list span :=
  flat_map (fun p => match p with Outside _ => [] | Inside s _ => [s] end) ps.

Section Conn.
  Variable W : Type.
  Variable app : request -> W -> W * app_answer.
  Variable cs : bool.
  Variable T : tree.
  Variable app_says : request -> W -> list message.
  Variable thrown : request -> W -> bytes.
  Variable unhandled : conn -> W -> bytes.
  (** client_ip_, http2_conn.h:51. *)
  Variable client_ip : bytes.

  (** The calls of SetAttribute in process_request, http2_conn.cpp:453-468; get_handler (457) may throw
      between them. *)
  Definition request_attributes (headers : list header) (w : W) : list (bytes * attribute) :=
    match get_header headers (str ":path"), get_header headers (str ":method") with
    | Some path, Some method =>
      [(str "http.method", AString method); (str "http.target", AString path); (str "ion.client_ip", AString client_ip)] ++
      match snd (app (Request method path headers) w) with
      | Answers r => [(str "http.status_code", AInt (rs_status r))]
      | Fails => [(str "http.status_code", AInt 500)]
      | Escapes => []
      end
    | _, _ => []
    end.
  (** process_frame, http2_conn.cpp:229-299. *)
  Definition frame_passages (f : frame) (d e : dyn_table) (w : W) : list passage :=
    let ms := frame_messages W app cs T app_says thrown f d e w in
    if f_type f =? FRAME_TYPE_HEADERS then
      let attributes :=
        match headers_block f with
        | Ret block => match hpack_decode T d block with Ret (Val hdrs, _) => request_attributes hdrs w | _ => [] end
        | _ => []
        end in
      [Inside (Span (str "http_request") attributes) ms]
    else map Outside ms.
  (** try_read_frame, http2_conn.cpp:199-227. *)
  Definition try_read_passages (c : conn) (w : W) : list passage :=
    if lenZ (c_rbuf c) <? 9 then []
    else
      match fh_parse (firstn 9 (c_rbuf c)) with
      | Ret h =>
        if (fh_length h >? MAX_FRAME_SIZE) || (lenZ (c_rbuf c) <? 9 + fh_length h)
        then map Outside (try_read_messages W app cs T app_says thrown c w)
        else frame_passages (Frame h (firstn (Z.to_nat (fh_length h)) (skipn 9 (c_rbuf c)))) (c_dec c) (c_enc c) w
      | _ => []
      end.
  (** The switch of internal_process, http2_conn.cpp:368-403. *)
  Definition dispatch_passages (c : conn) (w : W) : list passage :=
    match c_state c with
    | AwaitingPreface =>
      map Outside (preface_messages c) ++ match read_preface c with (PrefaceSuccess, c', _) => try_read_passages c' w | _ => [] end
    | AwaitingFrame => try_read_passages c w
    | _ => map Outside (dispatch_messages W app cs T app_says thrown c w)
    end.
  (** internal_process, http2_conn.cpp:349-405, and the exception caught by process, 319-327. *)
  Fixpoint internal_passages (fuel : nat) (s : scripts) (c : conn) (w : W) : list passage :=
    match fuel with
    | O => []
    | S fuel' =>
      let '(r, c0, _, hs') :=
        match c_state c with
        | AwaitingHandshake => handle_handshake (sc_hs s) c
        | _ => (None, c, [], sc_hs s)
        end in
      match r with
      | Some _ => []
      | None =>
        let '(c1, _, wr') := flush_write_buffer (sc_wr s) c0 in
        map Outside (flush_messages (sc_wr s) c0) ++
        match c_wbuf c1 with
        | _ :: _ => []
        | [] =>
          let '(c2, _, rd') := fill_read_buffer (sc_rd s) c1 in
          map Outside (fill_messages (sc_rd s) c1) ++ dispatch_passages c2 w ++
          match Conn.dispatch W app cs T c2 w with
          | Ret (Continue, c3, _, w') => internal_passages fuel' (Scripts hs' rd' wr') c3 w'
          | Ret (Exception, _, _, _) => [Outside (err (str "unhandled error processing connection: " ++ unhandled c2 w))]
          | _ => []
          end
        end
      end
    end.
  (** process, http2_conn.cpp:319-327. *)
  Definition process_passages (s : scripts) (c : conn) (w : W) : list passage :=
    internal_passages (3 + length (c_rbuf c) + script_octets (sc_rd s)) s c w.
End Conn.

(** A connection and all its passages, as [session] of Conn.v. *)
Section Traced.
  Variable W : Type.
  Variable app : request -> W -> W * app_answer.
  Variable cs : bool.
  Variable T : tree.
  Variable app_says : request -> W -> list message.
  Variable thrown : request -> W -> bytes.
  Variable unhandled : conn -> W -> bytes.
  Variable client_ip : bytes.
  Variable others : W -> W -> Prop.
  Variable t0 : Z.
  Variable w0 : W.
  Variable allowed : scripts -> Prop.

  (** A connection's calls of process, http2_server.cpp:80-118, with the passages. *)
  Inductive traced : option result -> conn -> trace -> W -> list passage -> Prop :=
  | traced_start : traced None (fresh_conn t0) [] w0 []
  | traced_others : forall r c tr w w' ps, traced r c tr w ps -> others w w' -> traced r c tr w' ps
  | traced_process : forall r c tr w s r' c' ev w' ps,
      traced r c tr w ps -> r <> Some DiscardConnection -> scripts_ok s -> allowed s ->
      process W app cs T s c w = Ret (r', c', ev, w') ->
      traced (Some r') c' (tr ++ ev) w' (ps ++ process_passages W app cs T app_says thrown unhandled client_ip s c w).
End Traced.

(** configure_telemetry, main.cpp:83-90, given the value of OTEL_SDK_DISABLED; without it or
    after ~Telemetry (telemetry.cpp:28-32) the provider is one that does nothing. *)
Definition telemetry_on (otel_disabled : option bytes) : bool :=
  match otel_disabled with Some v => negb (bytes_eqb v (str "true")) | None => true end.
(** The spans given to the exporter (SimpleSpanProcessor, telemetry.cpp:18-26). *)
Definition exported (otel_disabled : option bytes) (ps : list passage) : list span :=
  if telemetry_on otel_disabled then passage_spans ps else [].
(** TraceIdFlag::format, trace_id_flag.cpp:7-19, for each message; [ids]: the identifiers of the
    traces, one for each span as no span has a parent, in lower case hexadecimal digits.  A span of
    the provider that does nothing has no valid context. *)
Definition trace_mark (id : bytes) : bytes := str "[" ++ id ++ str "] ".
(** The marks of the messages of one passage, trace_id_flag.cpp:7-19. *)
Fixpoint passage_marks (ids : list bytes) (ps : list passage) : list bytes :=
  match ps with
  | [] => []
  | Outside _ :: ps' => [] :: passage_marks ids ps'
  | Inside _ ms :: ps' => repeat (trace_mark (hd [] ids)) (length ms) ++ passage_marks (tl ids) ps'
  end.
(** The same for passages in sequence, trace_id_flag.cpp:7-19. *)
Definition trace_marks (otel_disabled : option bytes) (ids : list bytes) (ps : list passage) : list bytes :=
  if telemetry_on otel_disabled then passage_marks ids ps else map (fun _ => []) (passage_messages ps).
