(** Model of all messages of connections, whatever their level: those of DebugMessages.v and,
    between them, those of http2_conn.cpp and header_block_decoder.cpp with level trace.  Those
    of the transport come between them and are in TransportTrace.v; those of the handlers are
    among [app_says]. *)
From Verif Require Import Base StaticTable IntCodec Huffman DynTable HpackDec HpackEnc Frames Http Conn AccessLog Messages DebugMessages HpackTrace.

(** handle_handshake, http2_conn.cpp:329-347. *)
Definition shake_trace (hs : list (Z * hs_result)) : list message :=
  match hs with
  | (_, HsOk) :: _ =>
    trace (str "transport handshake complete") :: update_debug AwaitingHandshake AwaitingPreface
  | [] | (_, HsErr WantReadOrWrite) :: _ => [trace (str "handshake: want read/write")]
  | (_, HsErr ConnectionClosed) :: _ => [trace (str "handshake: connection closed")]
  | (_, HsErr _) :: _ => [trace (str "handshake: connection error")]
  end.
(** fill_read_buffer, http2_conn.cpp:134-171. *)
Fixpoint fill_trace (rd : list (Z * rd_result)) (c : conn) : list message :=
  if lenZ (c_rbuf c) + TEMP_READ_BUFFER_SIZE >=? MAX_READ_BUFFER_SIZE then [debug (str "read buffer full")]
  else
    match rd with
    | [] | (_, RdErr WantReadOrWrite) :: _ => [trace (str "transport want read/write")]
    | (_, RdErr ConnectionClosed) :: _ => debug (str "transport connection closed") :: update_debug (c_state c) ClientClosed
    | (_, RdErr TransportProtocolError) :: _ => err (str "transport protocol error") :: update_debug (c_state c) StProtocolError
    | (_, RdErr WriteError) :: _ => [err (str "transport write error")]
    | (_, RdErr OtherError) :: _ => [err (str "transport other error (presumed non fatal)")]
    | (now, RdData o) :: rd' =>
      let c' := Conn (c_state c) (c_rbuf c ++ o) (c_wbuf c) (c_dec c) (c_enc c) now in
      trace (str "read " ++ to_string (lenZ o) ++ str " bytes, buffer size now " ++ to_string (lenZ (c_rbuf c'))) :: fill_trace rd' c'
    end.
(** flush_write_buffer, http2_conn.cpp:484-510. *)
Definition flush_trace (wr : list (Z * wr_result)) (c : conn) : list message :=
  match c_wbuf c with
  | [] => []
  | _ :: _ =>
    match wr with
    | [] | (_, WrErr WantReadOrWrite) :: _ => [trace (str "transport busy, write will be resumed later")]
    | (_, WrOk n) :: _ => [trace (str "flushed " ++ to_string (Z.max 0 (Z.min n (lenZ (c_wbuf c)))) ++ str " bytes from write buffer")]
    | (_, WrPartial _) :: _ | (_, WrErr _) :: _ => flush_debug wr c
    end
  end.
(** read_preface, http2_conn.cpp:177-197. *)
Definition preface_trace (c : conn) : list message :=
  if lenZ (c_rbuf c) <? lenZ CLIENT_PREFACE then
    [trace (str "not enough data for preface (" ++ to_string (lenZ (c_rbuf c)) ++ str " < " ++ to_string (lenZ CLIENT_PREFACE) ++ str ")")]
  else preface_debug c.
(** write_data_response, http2_conn.cpp:85-108, as the function of that name. *)
Fixpoint data_trace (fuel : nat) (rest : bytes) : list message :=
  match rest with
  | [] => []
  | _ :: _ =>
    match fuel with
    | O => []
    | S f =>
      let chunk_size := Z.min (lenZ rest) (MAX_FRAME_SIZE - 128) in
      trace (str "enqueuing data frame for write (size: " ++ to_string chunk_size ++ str ", rem: " ++ to_string (lenZ rest - chunk_size) ++ str ")") ::
      data_trace f (skipn (Z.to_nat chunk_size) rest)
    end
  end.

Section Conn.
  Variable W : Type.
  Variable app : request -> W -> W * app_answer.
  Variable cs : bool.
  Variable T : tree.
  Variable app_says : request -> W -> list message.
  Variable thrown : request -> W -> bytes.
  Variable unhandled : conn -> W -> bytes.
  Notation request_messages := (request_messages W app app_says thrown).

  (** The case HEADERS of process_frame, http2_conn.cpp:247-283; the others have no messages
      with level trace. *)
  Definition frame_trace (s : conn_state) (f : frame) (d e : dyn_table) (w : W) : list message :=
    if f_type f =? FRAME_TYPE_HEADERS then
      debug (str "received HEADERS frame for stream " ++ to_string (f_stream f)) ::
      debug (str " - end headers: " ++ DebugMessages.bool_text (has_flag f FLAG_END_HEADERS) ++ str ", end stream: " ++
             DebugMessages.bool_text (has_flag f FLAG_END_STREAM) ++ str ", length: " ++ to_string (fh_length (f_header f))) ::
      tables_debug d e ++
      match headers_block f with
      | Ret block =>
        decode_trace T d block ++
        match hpack_decode T d block with
        | Ret (Val hdrs, d') =>
          fields_debug hdrs ++ request_messages hdrs w ++
          match process_request W app hdrs w with
          | (_, Some resp, _) =>
            encode_debug cs e (rs_headers resp) ++
            match hpack_encode cs e (rs_headers resp) with
            | Ret (_, e') => tables_debug d' e' ++ sent_messages resp ++ data_trace (length (rs_body resp)) (rs_body resp)
            | _ => []
            end
          | _ => []
          end
        | Ret (Error _, _) => update_debug s StProtocolError
        | _ => []
        end
      | _ => []
      end
    else frame_debug W app cs T app_says thrown s f d e w.
  (** try_read_frame, http2_conn.cpp:199-227, and 380-382. *)
  Definition try_read_trace (c : conn) (w : W) : list message :=
    if lenZ (c_rbuf c) <? 9 then
      [trace (str "not enough data for frame header (" ++ to_string (lenZ (c_rbuf c)) ++ str " < " ++ to_string 9 ++ str ")")]
    else
      match fh_parse (firstn 9 (c_rbuf c)) with
      | Ret h =>
        debug (str "received frame header: type: " ++ to_string (fh_type h) ++ str ", flag: " ++ hex_text (fh_flags h) ++
               str ", length: " ++ to_string (fh_length h)) ::
        if fh_length h >? MAX_FRAME_SIZE then
          warn (str "frame too big (sz: " ++ to_string (fh_length h) ++ str ", max: " ++ to_string MAX_FRAME_SIZE ++ str ")") ::
          update_debug (c_state c) StProtocolError ++ [processed]
        else if lenZ (c_rbuf c) <? 9 + fh_length h then
          [trace (str "not enough data for whole frame (" ++ to_string (lenZ (c_rbuf c)) ++ str " < " ++ to_string (9 + fh_length h) ++ str ")")]
        else
          let f := Frame h (firstn (Z.to_nat (fh_length h)) (skipn 9 (c_rbuf c))) in
          frame_trace (c_state c) f (c_dec c) (c_enc c) w ++
          match process_frame W app cs T f (c_dec c) (c_enc c) w with
          | Ret (FrameThrows, _, _, _, _) => []
          | Ret _ => [processed]
          | _ => []
          end
      | _ => []
      end.
  (** The switch of internal_process, http2_conn.cpp:368-403. *)
  Definition dispatch_trace (c : conn) (w : W) : list message :=
    match c_state c with
    | AwaitingPreface =>
      preface_trace c ++ match read_preface c with (PrefaceSuccess, c', _) => try_read_trace c' w | _ => [] end
    | AwaitingFrame => try_read_trace c w
    | Closing => debug (str "in closing state, completing shutdown") :: update_debug Closing ClientClosed
    | StProtocolError => err (str "protocol error. closing connection") :: close_debug c
    | ClientClosed | AwaitingHandshake => []
    end.
  (** internal_process, http2_conn.cpp:349-405, and the exception caught by process, 319-327. *)
  Fixpoint internal_trace (fuel : nat) (s : scripts) (c : conn) (w : W) : list message :=
    match fuel with
    | O => []
    | S fuel' =>
      let '(r, c0, _, hs') :=
        match c_state c with
        | AwaitingHandshake => handle_handshake (sc_hs s) c
        | _ => (None, c, [], sc_hs s)
        end in
      trace (str "processing state: " ++ state_to_string (c_state c)) ::
      match c_state c with AwaitingHandshake => shake_trace (sc_hs s) | _ => [] end ++
      match r with
      | Some _ => []
      | None =>
        let '(c1, _, wr') := flush_write_buffer (sc_wr s) c0 in
        flush_trace (sc_wr s) c0 ++
        match c_wbuf c1 with
        | _ :: _ => []
        | [] =>
          let '(c2, _, rd') := fill_read_buffer (sc_rd s) c1 in
          fill_trace (sc_rd s) c1 ++ dispatch_trace c2 w ++
          match Conn.dispatch W app cs T c2 w with
          | Ret (Continue, c3, _, w') => internal_trace fuel' (Scripts hs' rd' wr') c3 w'
          | Ret (Exception, c3, _, _) =>
            err (str "unhandled error processing connection: " ++ unhandled c2 w) :: update_debug (c_state c3) StProtocolError
          | _ => []
          end
        end
      end
    end.
  (** process, http2_conn.cpp:319-327. *)
  Definition process_trace (s : scripts) (c : conn) (w : W) : list message :=
    internal_trace (3 + length (c_rbuf c) + script_octets (sc_rd s)) s c w.
End Conn.

(** A connection and all its messages, as [verbose] of DebugMessages.v. *)
Section Recorded.
  Variable W : Type.
  Variable app : request -> W -> W * app_answer.
  Variable cs : bool.
  Variable T : tree.
  Variable app_says : request -> W -> list message.
  Variable thrown : request -> W -> bytes.
  Variable unhandled : conn -> W -> bytes.
  Variable others : W -> W -> Prop.
  Variable t0 : Z.
  Variable w0 : W.
  Variable allowed : scripts -> Prop.

  (** A connection's calls of process, http2_server.cpp:80-118, with the messages. *)
  Inductive recorded : option result -> conn -> Http.trace -> W -> list message -> Prop :=
  | recorded_start : recorded None (fresh_conn t0) [] w0 []
  | recorded_others : forall r c tr w w' ms, recorded r c tr w ms -> others w w' -> recorded r c tr w' ms
  | recorded_process : forall r c tr w s r' c' ev w' ms,
      recorded r c tr w ms -> r <> Some DiscardConnection -> scripts_ok s -> allowed s ->
      process W app cs T s c w = Ret (r', c', ev, w') ->
      recorded (Some r') c' (tr ++ ev) w' (ms ++ process_trace W app cs T app_says thrown unhandled s c w).
End Recorded.
