(** Model of the messages of connections with level debug or above: those of Messages.v and,
    between them, those of http2_conn.cpp and dynamic_table.cpp with level debug.  Messages
    with level trace are left out, and so are those with level debug of the handlers (they are
    among [app_says]), transports and the server. *)
From Verif Require Import Base StaticTable IntCodec Huffman DynTable HpackDec HpackEnc Frames Http Conn AccessLog Messages.

(** spdlog::debug. *)
Definition debug (t : bytes) : message := Msg LDebug t.

(** DynamicTable::insert, dynamic_table.cpp:19-37. *)
Definition insert_debug (t : dyn_table) (h : header) : list message :=
  let entry_size := get_header_entry_size h in
  if entry_size >? dt_max t then
    [debug (str "dynamic table: entry too big (sz: " ++ to_string entry_size ++ str ", max: " ++ to_string (dt_max t) ++ str "), table wiped")]
  else [debug (str "dynamic table: current sz: " ++ to_string entry_size ++ str ", max: " ++ to_string (dt_max t))].
(** DynamicTable::log_contents, dynamic_table.cpp:58-64. *)
Fixpoint entries_debug (pos : Z) (hs : list header) : list message :=
  match hs with
  | [] => []
  | h :: hs' => debug (str " - (" ++ to_string pos ++ str ") " ++ h_name h ++ str ": " ++ h_value h) :: entries_debug (pos + 1) hs'
  end.
(** DynamicTable::log_contents, dynamic_table.cpp:58-64. *)
Definition contents_debug (t : dyn_table) : list message :=
  debug (str "dynamic table (size: " ++ to_string (dt_size t) ++ str ", max: " ++ to_string (dt_max t) ++ str "):") :: entries_debug 0 (dt_table t).
(** log_dynamic_tables, http2_conn.cpp:426-431. *)
Definition tables_debug (d e : dyn_table) : list message :=
  debug (str "decoder dynamic table:") :: contents_debug d ++ debug (str "encoder dynamic table:") :: contents_debug e.

(** HeaderBlockDecoder::decode, header_block_decoder.cpp:188-237, as decode_loop_messages. *)
Fixpoint decode_loop_debug (T : tree) (fuel : nat) (t : dyn_table) (r : reader) : list message :=
  match r with
  | [] => []
  | first_byte :: _ =>
    match fuel with
    | O => []
    | S f =>
      match from_byte first_byte with
      | Indexed =>
        decode_indexed_field_messages t r ++
        match decode_indexed_field t r with Ret (Val _, r1) => decode_loop_debug T f t r1 | _ => [] end
      | LiteralIncremental =>
        decode_literal_field_messages T 6 t r ++
        match decode_literal_field T 6 t r with
        | Ret (Val h, r1) => match dt_insert t h with Ret t1 => insert_debug t h ++ decode_loop_debug T f t1 r1 | _ => [] end
        | _ => []
        end
      | LiteralNoIndex | LiteralNeverIndex =>
        decode_literal_field_messages T 4 t r ++
        match decode_literal_field T 4 t r with Ret (Val _, r1) => decode_loop_debug T f t r1 | _ => [] end
      | SizeUpdate =>
        decode_size_update_messages r ++
        match decode_size_update t r with Ret (Val t1, r1) => decode_loop_debug T f t1 r1 | _ => [] end
      | Invalid => [err (str "invalid first byte in header representation: " ++ to_string first_byte)]
      end
    end
  end.
(** decode, header_block_decoder.cpp:188-237, of a whole block. *)
Definition decode_debug (T : tree) (t : dyn_table) (data : bytes) : list message := decode_loop_debug T (length data) t data.
(** HeaderBlockEncoder::encode, header_block_encoder.cpp:53-121: it inserts the fields for
    which neither table has an entry. *)
Fixpoint encode_debug (cs : bool) (t : dyn_table) (headers : list header) : list message :=
  match headers with
  | [] => []
  | hdr :: rest =>
    match encode_header cs t hdr with
    | Ret (_, t1) =>
      match find_index (fun x => bytes_eqb (h_name x) (h_name hdr) && bytes_eqb (h_value x) (h_value hdr)) STATIC_TABLE, dt_find t hdr with
      | None, None => insert_debug t hdr
      | _, _ => []
      end ++ encode_debug cs t1 rest
    | _ => []
    end
  end.

(** state_to_string, http2_conn.cpp:301-317, and update_state, 418-424. *)
Definition state_to_string (s : conn_state) : bytes :=
  match s with
  | AwaitingHandshake => str "AwaitingHandshake" | AwaitingPreface => str "AwaitingPreface" | AwaitingFrame => str "AwaitingFrame"
  | StProtocolError => str "ProtocolError" | ClientClosed => str "ClientClosed" | Closing => str "Closing"
  end.
(** The comparison of http2_conn.cpp:419. *)
Definition same_state (s s' : conn_state) : bool := bytes_eqb (state_to_string s) (state_to_string s').
(** update_state, http2_conn.cpp:418-424. *)
Definition update_debug (s s' : conn_state) : list message :=
  if same_state s s' then []
  else [debug (str "connection state changed from " ++ state_to_string s ++ str " to " ++ state_to_string s')].
(** The formats {} for bool and {:#04x} for an octet. *)
Definition bool_text (b : bool) : bytes := if b then str "true" else str "false".
(** A digit of {:#04x}. *)
Definition hex_digit (n : Z) : Z := if n <? 10 then 48 + n else 87 + n.
(** The format {:#04x}, http2_conn.cpp:208-209. *)
Definition hex_text (n : Z) : bytes := str "0x" ++ [hex_digit (n / 16); hex_digit (n mod 16)].

(** fill_read_buffer, http2_conn.cpp:134-171. *)
Fixpoint fill_debug (rd : list (Z * rd_result)) (c : conn) : list message :=
  if lenZ (c_rbuf c) + TEMP_READ_BUFFER_SIZE >=? MAX_READ_BUFFER_SIZE then [debug (str "read buffer full")]
  else
    match rd with
    | [] => []
    | (_, RdErr e) :: _ =>
      match e with
      | WantReadOrWrite => []
      | ConnectionClosed => debug (str "transport connection closed") :: update_debug (c_state c) ClientClosed
      | TransportProtocolError => err (str "transport protocol error") :: update_debug (c_state c) StProtocolError
      | WriteError => [err (str "transport write error")]
      | OtherError => [err (str "transport other error (presumed non fatal)")]
      end
    | (now, RdData o) :: rd' =>
      fill_debug rd' (Conn (c_state c) (c_rbuf c ++ o) (c_wbuf c) (c_dec c) (c_enc c) now)
    end.
(** flush_write_buffer, http2_conn.cpp:484-510: a message only if the state changes, to ProtocolError. *)
Definition flush_debug (wr : list (Z * wr_result)) (c : conn) : list message :=
  flush_messages wr c ++ match flush_messages wr c with [] => [] | _ :: _ => update_debug (c_state c) StProtocolError end.
(** read_preface, http2_conn.cpp:177-197, with write_settings, 126-132. *)
Definition preface_debug (c : conn) : list message :=
  preface_messages c ++
  match read_preface c with
  | (PrefaceSuccess, _, _) => debug (str "SETTINGS frame sent") :: update_debug (c_state c) AwaitingFrame
  | _ => []
  end.
(** close, http2_conn.cpp:407-416. *)
Definition close_debug (c : conn) : list message :=
  close_messages c ++
  match c_state c with Closing => [] | s => debug (str "GOAWAY frame enqueued") :: update_debug s Closing end.

Section Conn.
  Variable W : Type.
  Variable app : request -> W -> W * app_answer.
  Variable cs : bool.
  Variable T : tree.
  Variable app_says : request -> W -> list message.
  Variable thrown : request -> W -> bytes.
  Variable unhandled : conn -> W -> bytes.
  Notation request_messages := (request_messages W app app_says thrown).

  (** The loop of process_frame over the fields of a request, http2_conn.cpp:263-265. *)
  Definition fields_debug (hs : list header) : list message :=
    map (fun h => debug (str " - request header: " ++ h_name h ++ str ": " ++ h_value h)) hs.
  (** process_frame, http2_conn.cpp:229-299, in the state [s]. *)
  Definition frame_debug (s : conn_state) (f : frame) (d e : dyn_table) (w : W) : list message :=
    if f_type f =? FRAME_TYPE_SETTINGS then
      debug (str "received SETTINGS frame (stream=" ++ to_string (f_stream f) ++ str " flags=" ++ to_string (f_flags f) ++ str ")") ::
      if has_flag f 1 then [debug (str "received SETTINGS ACK")]
      else if negb (lenZ (f_payload f) mod 6 =? 0) then
        err (str "invalid SETTINGS frame: data size not a multiple of " ++ to_string 6) :: update_debug s StProtocolError
      else [debug (str "read " ++ to_string (lenZ (f_payload f) / 6) ++ str " settings, sending ACK")]
    else if f_type f =? FRAME_TYPE_HEADERS then
      debug (str "received HEADERS frame for stream " ++ to_string (f_stream f)) ::
      debug (str " - end headers: " ++ bool_text (has_flag f FLAG_END_HEADERS) ++ str ", end stream: " ++
             bool_text (has_flag f FLAG_END_STREAM) ++ str ", length: " ++ to_string (fh_length (f_header f))) ::
      tables_debug d e ++
      match headers_block f with
      | Ret block =>
        decode_debug T d block ++
        match hpack_decode T d block with
        | Ret (Val hdrs, d') =>
          fields_debug hdrs ++ request_messages hdrs w ++
          match process_request W app hdrs w with
          | (_, Some resp, _) =>
            encode_debug cs e (rs_headers resp) ++
            match hpack_encode cs e (rs_headers resp) with
            | Ret (_, e') => tables_debug d' e' ++ sent_messages resp
            | _ => []
            end
          | _ => []
          end
        | Ret (Error _, _) => update_debug s StProtocolError
        | _ => []
        end
      | _ => []
      end
    else if f_type f =? FRAME_TYPE_WINDOW_UPDATE then
      debug (str "received WINDOW_UPDATE frame for stream " ++ to_string (f_stream f)) ::
      match read_window_update f with Ret n => [debug (str "window size increment = " ++ to_string n)] | _ => [] end
    else if f_type f =? FRAME_TYPE_GOAWAY then
      debug (str "received GOAWAY frame (stream " ++ to_string (f_stream f) ++ str ")") :: update_debug s ClientClosed
    else [debug (str "received unknown frame type: " ++ to_string (f_type f))].
  (** try_read_frame, http2_conn.cpp:199-227, and 380-382. *)
  Definition processed : message := debug (str "frame processed, continuing...").
  (** try_read_frame, http2_conn.cpp:199-227. *)
  Definition try_read_debug (c : conn) (w : W) : list message :=
    if lenZ (c_rbuf c) <? 9 then []
    else
      match fh_parse (firstn 9 (c_rbuf c)) with
      | Ret h =>
        debug (str "received frame header: type: " ++ to_string (fh_type h) ++ str ", flag: " ++ hex_text (fh_flags h) ++
               str ", length: " ++ to_string (fh_length h)) ::
        if fh_length h >? MAX_FRAME_SIZE then
          warn (str "frame too big (sz: " ++ to_string (fh_length h) ++ str ", max: " ++ to_string MAX_FRAME_SIZE ++ str ")") ::
          update_debug (c_state c) StProtocolError ++ [processed]
        else if lenZ (c_rbuf c) <? 9 + fh_length h then []
        else
          let f := Frame h (firstn (Z.to_nat (fh_length h)) (skipn 9 (c_rbuf c))) in
          frame_debug (c_state c) f (c_dec c) (c_enc c) w ++
          match process_frame W app cs T f (c_dec c) (c_enc c) w with
          | Ret (FrameThrows, _, _, _, _) => []
          | Ret _ => [processed]
          | _ => []
          end
      | _ => []
      end.
  (** The switch of internal_process, http2_conn.cpp:368-403. *)
  Definition dispatch_debug (c : conn) (w : W) : list message :=
    match c_state c with
    | AwaitingPreface =>
      preface_debug c ++ match read_preface c with (PrefaceSuccess, c', _) => try_read_debug c' w | _ => [] end
    | AwaitingFrame => try_read_debug c w
    | Closing => debug (str "in closing state, completing shutdown") :: update_debug Closing ClientClosed
    | StProtocolError => err (str "protocol error. closing connection") :: close_debug c
    | ClientClosed | AwaitingHandshake => []
    end.
  (** internal_process, http2_conn.cpp:349-405, and the exception caught by process, 319-327; handle_handshake,
      329-347, changes the state if it goes on. *)
  Fixpoint internal_debug (fuel : nat) (s : scripts) (c : conn) (w : W) : list message :=
    match fuel with
    | O => []
    | S fuel' =>
      let '(r, c0, _, hs') :=
        match c_state c with
        | AwaitingHandshake => handle_handshake (sc_hs s) c
        | _ => (None, c, [], sc_hs s)
        end in
      match r with
      | Some _ => []
      | None =>
        let '(c1, _, wr') := flush_write_buffer (sc_wr s) c0 in
        update_debug (c_state c) (c_state c0) ++ flush_debug (sc_wr s) c0 ++
        match c_wbuf c1 with
        | _ :: _ => []
        | [] =>
          let '(c2, _, rd') := fill_read_buffer (sc_rd s) c1 in
          fill_debug (sc_rd s) c1 ++ dispatch_debug c2 w ++
          match Conn.dispatch W app cs T c2 w with
          | Ret (Continue, c3, _, w') => internal_debug fuel' (Scripts hs' rd' wr') c3 w'
          | Ret (Exception, c3, _, _) =>
            err (str "unhandled error processing connection: " ++ unhandled c2 w) :: update_debug (c_state c3) StProtocolError
          | _ => []
          end
        end
      end
    end.
  (** process, http2_conn.cpp:319-327. *)
  Definition process_debug (s : scripts) (c : conn) (w : W) : list message :=
    internal_debug (3 + length (c_rbuf c) + script_octets (sc_rd s)) s c w.
End Conn.

(** A connection and all its messages, as [narrated] of Messages.v. *)
Section Verbose.
  Variable W : Type.
  Variable app : request -> W -> W * app_answer.
  Variable cs : bool.
  Variable T : tree.
  Variable app_says : request -> W -> list message.
  Variable thrown : request -> W -> bytes.
  Variable unhandled : conn -> W -> bytes.
  Variable others : W -> W -> Prop.
  Variable t0 : Z.
  Variable w0 : W.
  Variable allowed : scripts -> Prop.

  (** A connection's calls of process, http2_server.cpp:80-118, with the messages. *)
  Inductive verbose : option result -> conn -> trace -> W -> list message -> Prop :=
  | verbose_start : verbose None (fresh_conn t0) [] w0 []
  | verbose_others : forall r c tr w w' ms, verbose r c tr w ms -> others w w' -> verbose r c tr w' ms
  | verbose_process : forall r c tr w s r' c' ev w' ms,
      verbose r c tr w ms -> r <> Some DiscardConnection -> scripts_ok s -> allowed s ->
      process W app cs T s c w = Ret (r', c', ev, w') ->
      verbose (Some r') c' (tr ++ ev) w' (ms ++ process_debug W app cs T app_says thrown unhandled s c w).
End Verbose.
