(** Model of the messages that connections and the handler of static files pass to spdlog
    with level info or above: header_block_decoder.cpp, huffman_tree.cpp, http2_frame_reader.cpp,
    http2_conn.cpp, file_reader.cpp, static_file_handler.cpp.  Each function here gives the
    messages of one function of the code; what the code computes meanwhile is taken from the
    models of HpackDec.v, Conn.v, Files.v and App.v.  Messages below info are left out; those
    of pollers, listener and server are in ServerMessages.v, those of transports in
    TransportMessages.v, those of main in StartMessages.v. *)
From Verif Require Import Base StaticTable IntCodec Huffman DynTable HpackDec HpackEnc Frames Http Conn FileSys Files Router App AccessLog.

(** One call of spdlog::trace, debug, info, warn, error or critical. *)
Record message := Msg { m_level : level; m_text : bytes }.
(** spdlog::error. *)
Definition err (t : bytes) : message := Msg LErr t.
(** spdlog::warn. *)
Definition warn (t : bytes) : message := Msg LWarn t.
(** spdlog::info. *)
Definition info (t : bytes) : message := Msg LInfo t.

(** The loop over what should be padding, huffman_tree.cpp:53-60; [pos] is bits_processed. *)
Fixpoint padding_messages (bits : list bool) (pos : Z) : list message :=
  match bits with
  | [] => []
  | true :: bits' => padding_messages bits' (pos + 1)
  | false :: _ => [err (str "remaining unmatched Huffman code is not padding: (bit pos = " ++ to_string pos ++ str ")")]
  end.
(** HuffmanTree::decode, huffman_tree.cpp:37-71. *)
Fixpoint huffman_messages (root current : tree) (bits : list bool) (pos : Z) : list message :=
  match bits with
  | [] => []
  | bit :: bits' =>
    match current with
    | Null => []
    | Node l r _ =>
      let next := if bit then r else l in
      match next with
      | Null => padding_messages bits' (pos + 1)
      | Node _ _ (Some _) => huffman_messages root root bits' (pos + 1)
      | Node _ _ None => huffman_messages root next bits' (pos + 1)
      end
    end
  end.

Section Decoder.
  Variable T : tree.

  (** string_length_within_limit, header_block_decoder.cpp:54-61. *)
  Definition limit_messages (size : Z) : list message :=
    if string_length_within_limit size then []
    else [err (str "Header string length exceeds maximum allowed size (len: " ++ to_string size ++ str ", max: " ++
               to_string MAX_HEADER_STRING_LENGTH ++ str ")")].
  (** read_string with decode_huffman_string, header_block_decoder.cpp:63-85. *)
  Definition read_string_messages (is_huffman : bool) (size : Z) (data : bytes) : list message :=
    if is_huffman then
      huffman_messages T T (bit_reader data) 0 ++
      match huffman_decode T data with Ret (Val s) => limit_messages (lenZ s) | _ => [] end
    else limit_messages size.
  (** read_length_and_string, header_block_decoder.cpp:30-52. *)
  Definition read_length_and_string_messages (r : reader) : list message :=
    match peek_byte r with
    | None => [err (str "Unexpected end of data while reading header length & string")]
    | Some length_byte =>
      match int_decode 7 r with
      | (Error _, _) => [err (str "Failed to decode string length integer")]
      | (Val str_size, r1) =>
        match read_bytes r1 str_size with
        | None => [err (str "Insufficient data for string")]
        | Some (data, _) => read_string_messages (negb (Z.land length_byte 128 =? 0)) str_size data
        end
      end
    end.
  (** read_indexed_header and read_indexed_header_name, header_block_decoder.cpp:87-131; [what]: the words in which
      their messages differ. *)
  Definition lookup_messages (what : bytes) (t : dyn_table) (index : Z) : list message :=
    let table_index := u64 (index - 1) in
    if table_index <? lenZ STATIC_TABLE then []
    else if u64 (table_index - lenZ STATIC_TABLE) >=? dt_count t then
      [err (str "invalid dynamic table index lookup for " ++ what ++ str " (idx: " ++ to_string index ++ str ", sz: " ++
            to_string (dt_count t) ++ str ")")]
    else [].
  (** decode_indexed_field, header_block_decoder.cpp:133-144. *)
  Definition decode_indexed_field_messages (t : dyn_table) (r : reader) : list message :=
    match int_decode 7 r with
    | (Error _, _) => [err (str "failed to decode indexed header index (not enough bytes)")]
    | (Val index, _) =>
      if index <? 1 then [err (str "invalid header index (<1)")] else lookup_messages (str "header") t index
    end.
  (** decode_literal_field, header_block_decoder.cpp:146-167. *)
  Definition decode_literal_field_messages (idx_prefix_bits : Z) (t : dyn_table) (r : reader) : list message :=
    match int_decode idx_prefix_bits r with
    | (Error _, _) => [err (str "failed to decode literal field index (not enough bytes)")]
    | (Val index, r1) =>
      if index =? 0 then
        read_length_and_string_messages r1 ++
        match read_length_and_string T r1 with
        | Ret (Val _, r2) => read_length_and_string_messages r2
        | _ => []
        end
      else
        lookup_messages (str "header name") t index ++
        match read_indexed_header_name t index with
        | Ret (Val _) => read_length_and_string_messages r1
        | _ => []
        end
    end.
  (** decode_dynamic_table_size_update, header_block_decoder.cpp:169-186. *)
  Definition decode_size_update_messages (r : reader) : list message :=
    match int_decode 5 r with
    | (Error _, _) => [err (str "failed to decode dynamic table size update (not enough bytes)")]
    | (Val new_sz, _) =>
      if new_sz >? HARD_TABLE_SIZE_LIMIT then
        [err (str "dynamic table size update exceeds hard limit (" ++ to_string new_sz ++ str " > " ++
              to_string HARD_TABLE_SIZE_LIMIT ++ str ")")]
      else []
    end.
  (** decode, header_block_decoder.cpp:188-237. *)
  Fixpoint decode_loop_messages (fuel : nat) (t : dyn_table) (r : reader) : list message :=
    match r with
    | [] => []
    | first_byte :: _ =>
      match fuel with
      | O => []
      | S f =>
        match from_byte first_byte with
        | Indexed =>
          decode_indexed_field_messages t r ++
          match decode_indexed_field t r with Ret (Val _, r1) => decode_loop_messages f t r1 | _ => [] end
        | LiteralIncremental =>
          decode_literal_field_messages 6 t r ++
          match decode_literal_field T 6 t r with
          | Ret (Val h, r1) => match dt_insert t h with Ret t1 => decode_loop_messages f t1 r1 | _ => [] end
          | _ => []
          end
        | LiteralNoIndex | LiteralNeverIndex =>
          decode_literal_field_messages 4 t r ++
          match decode_literal_field T 4 t r with Ret (Val _, r1) => decode_loop_messages f t r1 | _ => [] end
        | SizeUpdate =>
          decode_size_update_messages r ++
          match decode_size_update t r with Ret (Val t1, r1) => decode_loop_messages f t1 r1 | _ => [] end
        | Invalid => [err (str "invalid first byte in header representation: " ++ to_string first_byte)]
        end
      end
    end.
  (** decode, header_block_decoder.cpp:188-237, of a whole block. *)
  Definition decode_messages (t : dyn_table) (data : bytes) : list message := decode_loop_messages (length data) t data.
End Decoder.

(** fill_read_buffer, http2_conn.cpp:134-171. *)
Fixpoint fill_messages (rd : list (Z * rd_result)) (c : conn) : list message :=
  if lenZ (c_rbuf c) + TEMP_READ_BUFFER_SIZE >=? MAX_READ_BUFFER_SIZE then []
  else
    match rd with
    | [] => []
    | (_, RdErr e) :: _ =>
      match e with
      | WantReadOrWrite | ConnectionClosed => []
      | TransportProtocolError => [err (str "transport protocol error")]
      | WriteError => [err (str "transport write error")]
      | OtherError => [err (str "transport other error (presumed non fatal)")]
      end
    | (now, RdData o) :: rd' =>
      fill_messages rd' (Conn (c_state c) (c_rbuf c ++ o) (c_wbuf c) (c_dec c) (c_enc c) now)
    end.
(** static_cast<int> of a TransportError, transport.h:9-15. *)
Definition error_number (e : transport_error) : Z :=
  match e with WantReadOrWrite => 0 | WriteError => 1 | ConnectionClosed => 2 | TransportProtocolError => 3 | OtherError => 4 end.
(** flush_write_buffer, http2_conn.cpp:484-510. *)
Definition flush_messages (wr : list (Z * wr_result)) (c : conn) : list message :=
  let failed e := [err (str "failed to flush write buffer: error: " ++ to_string (error_number e))] in
  match c_wbuf c, wr with
  | _ :: _, (_, WrPartial _) :: _ => failed WriteError
  | _ :: _, (_, WrErr e) :: _ => match e with WantReadOrWrite => [] | _ => failed e end
  | _, _ => []
  end.
(** read_preface, http2_conn.cpp:177-197. *)
Definition preface_messages (c : conn) : list message :=
  match read_preface c with
  | (PrefaceNotEnoughData, _, _) => []
  | (PrefaceProtocolError, _, _) => [err (str "invalid HTTP/2 preface received")]
  | (PrefaceSuccess, _, _) => [info (str "valid HTTP/2 preface received")]
  end.
(** close, http2_conn.cpp:407-416. *)
Definition close_messages (c : conn) : list message :=
  match c_state c with Closing => [err (str "attempting to close connection in closing state")] | _ => [] end.

Section Conn.
  Variable W : Type.
  Variable app : request -> W -> W * app_answer.
  Variable cs : bool.
  Variable T : tree.
  (** The messages of the router and its handlers about a request; the text (what()) of the
      exception a handler throws; that of one which leaves internal_process. *)
  Variable app_says : request -> W -> list message.
  Variable thrown : request -> W -> bytes.
  Variable unhandled : conn -> W -> bytes.

  (** process_request, http2_conn.cpp:443-478. *)
  Definition request_messages (headers : list header) (w : W) : list message :=
    match get_header headers (str ":path"), get_header headers (str ":method") with
    | Some path, Some method =>
      let req := Request method path headers in
      app_says req w ++
      match snd (app req w) with Fails => [err (str "error processing request: " ++ thrown req w)] | _ => [] end
    | _, _ => [err (str "invalid request: missing path or method")]
    end.
  (** After the response is encoded, process_frame, http2_conn.cpp:274-278. *)
  Definition sent_messages (resp : response) : list message :=
    info (to_string (rs_status resp) ++ str " status code sent w/headers") ::
    match rs_body resp with
    | [] => []
    | _ :: _ => [info (str "sending response body (length: " ++ to_string (lenZ (rs_body resp)) ++ str ")")]
    end.
  (** process_frame, 229-299, with read_settings, http2_frame_reader.cpp:11-29. *)
  Definition frame_messages (f : frame) (d e : dyn_table) (w : W) : list message :=
    if f_type f =? FRAME_TYPE_SETTINGS then
      if has_flag f 1 then []
      else if negb (lenZ (f_payload f) mod 6 =? 0) then
        [err (str "invalid SETTINGS frame: data size not a multiple of " ++ to_string 6)]
      else []
    else if f_type f =? FRAME_TYPE_HEADERS then
      match headers_block f with
      | Ret block =>
        decode_messages T d block ++
        match hpack_decode T d block with
        | Ret (Val hdrs, _) =>
          request_messages hdrs w ++
          match process_request W app hdrs w with
          | (_, Some resp, _) => match hpack_encode cs e (rs_headers resp) with Ret _ => sent_messages resp | _ => [] end
          | _ => []
          end
        | _ => []
        end
      | _ => []
      end
    else [].
  (** try_read_frame, http2_conn.cpp:199-227. *)
  Definition try_read_messages (c : conn) (w : W) : list message :=
    if lenZ (c_rbuf c) <? 9 then []
    else
      match fh_parse (firstn 9 (c_rbuf c)) with
      | Ret h =>
        if fh_length h >? MAX_FRAME_SIZE then
          [warn (str "frame too big (sz: " ++ to_string (fh_length h) ++ str ", max: " ++ to_string MAX_FRAME_SIZE ++ str ")")]
        else if lenZ (c_rbuf c) <? 9 + fh_length h then []
        else frame_messages (Frame h (firstn (Z.to_nat (fh_length h)) (skipn 9 (c_rbuf c)))) (c_dec c) (c_enc c) w
      | _ => []
      end.
  (** The switch of internal_process, http2_conn.cpp:368-403. *)
  Definition dispatch_messages (c : conn) (w : W) : list message :=
    match c_state c with
    | AwaitingPreface =>
      preface_messages c ++ match read_preface c with (PrefaceSuccess, c', _) => try_read_messages c' w | _ => [] end
    | AwaitingFrame => try_read_messages c w
    | StProtocolError => err (str "protocol error. closing connection") :: close_messages c
    | Closing | ClientClosed | AwaitingHandshake => []
    end.
  (** internal_process, http2_conn.cpp:349-405, and the exception caught by process, 319-327. *)
  Fixpoint internal_messages (fuel : nat) (s : scripts) (c : conn) (w : W) : list message :=
    match fuel with
    | O => []
    | S fuel' =>
      let '(r, c0, _, hs') :=
        match c_state c with
        | AwaitingHandshake => handle_handshake (sc_hs s) c
        | _ => (None, c, [], sc_hs s)
        end in
      match r with
      | Some _ => []
      | None =>
        let '(c1, _, wr') := flush_write_buffer (sc_wr s) c0 in
        flush_messages (sc_wr s) c0 ++
        match c_wbuf c1 with
        | _ :: _ => []
        | [] =>
          let '(c2, _, rd') := fill_read_buffer (sc_rd s) c1 in
          fill_messages (sc_rd s) c1 ++ dispatch_messages c2 w ++
          match Conn.dispatch W app cs T c2 w with
          | Ret (Continue, c3, _, w') => internal_messages fuel' (Scripts hs' rd' wr') c3 w'
          | Ret (Exception, _, _, _) => [err (str "unhandled error processing connection: " ++ unhandled c2 w)]
          | _ => []
          end
        end
      end
    end.
  (** process, http2_conn.cpp:319-327. *)
  Definition process_messages (s : scripts) (c : conn) (w : W) : list message :=
    internal_messages (3 + length (c_rbuf c) + script_octets (sc_rd s)) s c w.
End Conn.

(** A connection and all its messages, as [session] of Conn.v. *)
Section Narrated.
  Variable W : Type.
  Variable app : request -> W -> W * app_answer.
  Variable cs : bool.
  Variable T : tree.
  Variable app_says : request -> W -> list message.
  Variable thrown : request -> W -> bytes.
  Variable unhandled : conn -> W -> bytes.
  Variable others : W -> W -> Prop.
  Variable t0 : Z.
  Variable w0 : W.
  Variable allowed : scripts -> Prop.

  (** A connection's calls of process, http2_server.cpp:80-118, with the messages. *)
  Inductive narrated : option result -> conn -> trace -> W -> list message -> Prop :=
  | narrated_start : narrated None (fresh_conn t0) [] w0 []
  | narrated_others : forall r c tr w w' ms, narrated r c tr w ms -> others w w' -> narrated r c tr w' ms
  | narrated_process : forall r c tr w s r' c' ev w' ms,
      narrated r c tr w ms -> r <> Some DiscardConnection -> scripts_ok s -> allowed s ->
      process W app cs T s c w = Ret (r', c', ev, w') ->
      narrated (Some r') c' (tr ++ ev) w' (ms ++ process_messages W app cs T app_says thrown unhandled s c w).
End Narrated.

(** Where read_file fails, file_reader.cpp:14-31. *)
Inductive unread := NotOpened | NoSize | NotRead.

Section Files.
  (** what() of the std::filesystem_error caught in sanitize_path, given the directory and
      the path requested; how reading a file fails. *)
  Variable path_error : bytes -> bytes -> bytes.
  Variable fails : bytes -> unread.

  (** sanitize_path, file_reader.cpp:99-143. *)
  Definition sanitize_messages (o : os) (base_dir requested : bytes) : list message :=
    match fs_absolute o base_dir with
    | Ret base_abs =>
      match fs_status o (path_string base_abs) with
      | Ret (Some (EDir _)) =>
        match sanitize o base_dir requested with
        | Ret (Some _) => []
        | Ret None => [warn (str "Directory traversal attempt blocked: " ++ requested ++ str " (base: " ++ base_dir ++ str ")")]
        | _ => [err (str "Path error: " ++ path_error base_dir requested)]
        end
      | Ret _ => [err (str "Path error: base directory does not exist or is not a directory: " ++ base_dir)]
      | _ => [err (str "Path error: " ++ path_error base_dir requested)]
      end
    | _ => [err (str "Path error: " ++ path_error base_dir requested)]
    end.
  (** read_file, file_reader.cpp:13-36. *)
  Definition read_file_messages (o : os) (p : bytes) : list message :=
    match read_file o p with
    | Some _ => []
    | None => match fails p with
              | NotOpened => [warn (str "Failed to open file: " ++ p)]
              | NoSize => [err (str "Failed to get file size: " ++ p)]
              | NotRead => [err (str "Failed to read file: " ++ p)]
              end
    end.
  (** get_response, static_file_handler.cpp:37-48. *)
  Definition get_response_messages (o : os) (p : bytes) : list message :=
    read_file_messages o p ++ match read_file o p with None => [err (str "failed to read file: " ++ p)] | Some _ => [] end.
  (** head_response, 50-62, with get_file_size, file_reader.cpp:38-49 (the error code is that
      of a file that is not there or not a regular one). *)
  Definition head_response_messages (o : os) (p : bytes) : list message :=
    match get_file_size o p with
    | Some _ => []
    | None => [warn (str "Failed to get file size for " ++ p ++ str ": " ++ path_error [] p); err (str "failed to get file size: " ++ p)]
    end.
  (** file_response, static_file_handler.cpp:64-72. *)
  Definition file_messages (o : os) (p : bytes) (head_request : bool) : list message :=
    if is_readable o p then if head_request then head_response_messages o p else get_response_messages o p else [].
  (** handle, static_file_handler.cpp:74-84. *)
  Definition static_messages (o : os) (h : static) (p : bytes) (is_head : bool) : list message :=
    match get_relative_path h p with
    | Ret rel =>
      sanitize_messages o (st_root h) rel ++
      match sanitize_path o (st_root h) rel with
      | None => [warn (str "invalid file path requested: " ++ p)]
      | Some safe => file_messages o safe is_head
      end
    | _ => []
    end.

  (** The shipped program: get_handler, router.cpp:11-36, for the registrations of
      main.cpp:22-57, and the middleware of main.cpp:44-57.  The routes themselves have no
      messages of these levels, but for the failure of prctl in /_tests/no_new_privs, which is
      left out. *)
  Variable page : stats -> Z -> bytes.
  (** The handler chosen in router.cpp:11-36. *)
  Definition target_messages (a : args) (rq : request) (w : world) : list message :=
    let r := configure world (main_registrations page a) in
    match find_route world (r_routes world r) (rq_path rq) (rq_method rq) with
    | Some _ => []
    | None =>
      if bytes_eqb (rq_method rq) (str "GET") || bytes_eqb (rq_method rq) (str "HEAD") then
        match find (fun h => static_matches h (rq_path rq)) (rev (r_static world r)) with
        | Some h => static_messages (w_os w) h (rq_path rq) (bytes_eqb (rq_method rq) (str "HEAD"))
        | None => []
        end
      else []
    end.
  (** The program's handlers with the middleware of main.cpp:44-57. *)
  Definition program_messages (a : args) (rq : request) (w : world) : list message :=
    target_messages a rq w ++
    match a_status_404_file_path a, snd (main_app page a rq w) with
    | _ :: _, Answers r => if rs_status r =? 404 then file_messages (w_os w) (a_status_404_file_path a) false else []
    | _, _ => []
    end.
End Files.

(** The console: main.cpp:103-107 sets the pattern "[%Y-%m-%d %H:%M:%S.%e] [%l] %J%v"; spdlog
    adds a newline.  Parameters for each message: the time, and what %J gives
    (trace_id_flag.cpp:7-19). *)
Definition level_name (l : level) : bytes :=
  match l with
  | LTrace => str "trace" | LDebug => str "debug" | LInfo => str "info" | LWarn => str "warning"
  | LErr => str "error" | LCritical => str "critical" | LOff => str "off"
  end.
(** One line, main.cpp:103-107. *)
Definition console_line (stamp trace_id : bytes) (m : message) : bytes :=
  str "[" ++ stamp ++ str "] [" ++ level_name (m_level m) ++ str "] " ++ trace_id ++ m_text m ++ [10].
(** What the level [l] (set_level, main.cpp:107) lets through. *)
Definition lets_through (l : level) (m : message) : bool := severity l <=? severity (m_level m).
(** All lines, main.cpp:103-107. *)
Fixpoint console (l : level) (marks : list (bytes * bytes)) (ms : list message) : bytes :=
  match marks, ms with
  | (stamp, trace_id) :: marks', m :: ms' =>
    (if lets_through l m then console_line stamp trace_id m else []) ++ console l marks' ms'
  | _, _ => []
  end.
