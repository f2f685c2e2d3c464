(** Model of lib/http2_conn.{h,cpp}: class Http2Connection. *)
From Verif Require Import Base Huffman DynTable HpackDec HpackEnc Frames Http.

(** Constants, http2_conn.cpp:16-33. *)
Definition CLIENT_PREFACE : bytes :=
  str "PRI * HTTP/2.0" ++ [13; 10; 13; 10] ++ str "SM" ++ [13; 10; 13; 10].
(** http2_conn.cpp:18. *)
Definition FRAME_TYPE_DATA := 0.
(** http2_conn.cpp:19. *)
Definition FRAME_TYPE_HEADERS := 1.
(** http2_conn.cpp:20. *)
Definition FRAME_TYPE_SETTINGS := 4.
(** http2_conn.cpp:21. *)
Definition FRAME_TYPE_GOAWAY := 7.
(** http2_conn.cpp:22. *)
Definition FRAME_TYPE_WINDOW_UPDATE := 8.
(** http2_conn.cpp:24. *)
Definition FLAG_END_HEADERS := 4.
(** http2_conn.cpp:25. *)
Definition FLAG_END_STREAM := 1.
(** http2_conn.cpp:27. *)
Definition MAX_READ_BUFFER_SIZE := 65536.
(** http2_conn.cpp:28. *)
Definition MAX_FRAME_SIZE := 16384.
(** http2_conn.cpp:31. *)
Definition TEMP_READ_BUFFER_SIZE := 16384.
Definition IDLE_TIMEOUT := 5000000000.  (* 5 s in nanoseconds *)
Definition SERVER_HEADER : bytes := str "ion".  (* version.h.in:6 *)

(** enum class Http2ConnectionState, http2_conn.h:25-32. *)
Inductive conn_state := AwaitingHandshake | AwaitingPreface | AwaitingFrame | Closing
  | StProtocolError | ClientClosed.

(** Data members, http2_conn.h:50-60.  The transport is an input (scripts), the router is
    the parameter [app] below; client_ip_ only appears in log lines. *)
Record conn := Conn {
  c_state : conn_state;
  c_rbuf : bytes;
  c_wbuf : bytes;
  c_dec : dyn_table;
  c_enc : dyn_table;
  c_last : Z }.

(** Constructor, http2_conn.cpp:35-40, at time [now]. *)
Definition fresh_conn (now : Z) : conn :=
  Conn AwaitingHandshake [] [] (dt_init DEFAULT_MAX_TABLE_SIZE) (dt_init DEFAULT_MAX_TABLE_SIZE) now.

(** update_state, http2_conn.cpp:418-424. *)
Definition set_state (s : conn_state) (c : conn) : conn :=
  Conn s (c_rbuf c) (c_wbuf c) (c_dec c) (c_enc c) (c_last c).
(** discard_processed_buffer, http2_conn.cpp:173-175 (only called with n <= size). *)
Definition discard (n : Z) (c : conn) : conn :=
  Conn (c_state c) (skipn (Z.to_nat n) (c_rbuf c)) (c_wbuf c) (c_dec c) (c_enc c) (c_last c).
(** enqueue_write, http2_conn.cpp:480-482. *)
Definition enqueue (o : bytes) (c : conn) : conn :=
  Conn (c_state c) (c_rbuf c) (c_wbuf c ++ o) (c_dec c) (c_enc c) (c_last c).

(** The write_* functions, as the octets they pass to enqueue_write (a frame header and
    its payload are two calls in the code, one here).
    write_settings(settings), http2_conn.cpp:52-66. *)
Definition write_settings_frame (settings : list setting) : bytes :=
  fh_serialize (FH (u32 (lenZ settings * 6)) FRAME_TYPE_SETTINGS 0 0) ++ flat_map setting_serialize settings.
(** write_settings_ack, http2_conn.cpp:68-72. *)
Definition write_settings_ack : bytes := fh_serialize (FH 0 FRAME_TYPE_SETTINGS 1 0).
(** write_headers_response, http2_conn.cpp:74-83. *)
Definition write_headers_response (stream : Z) (block : bytes) (flags : Z) : bytes :=
  fh_serialize (FH (u32 (lenZ block)) FRAME_TYPE_HEADERS flags stream) ++ block.
(** write_data_response, http2_conn.cpp:85-108; [rest] is the part of the body from [start] on. *)
Fixpoint write_data_response (fuel : nat) (stream : Z) (rest : bytes) : out bytes :=
  match rest with
  | [] => Ret []
  | _ :: _ =>
    match fuel with
    | O => Fuel
    | S f =>
      let chunk_size := Z.min (lenZ rest) (MAX_FRAME_SIZE - 128) in
      let remaining := lenZ rest - chunk_size in
      let h := fh_serialize (FH (u32 chunk_size) FRAME_TYPE_DATA
                               (if remaining =? 0 then FLAG_END_STREAM else 0) stream) in
      let! more := write_data_response f stream (skipn (Z.to_nat chunk_size) rest) in
      Ret (h ++ firstn (Z.to_nat chunk_size) rest ++ more)
    end
  end.
(** write_goaway, http2_conn.cpp:110-124. *)
Definition write_goaway (last_stream error_code : Z) : bytes :=
  fh_serialize (FH 8 FRAME_TYPE_GOAWAY 0 0) ++ goaway_serialize (GoAway last_stream error_code).
(** write_settings(), http2_conn.cpp:126-132. *)
Definition write_settings : bytes :=
  write_settings_frame [Setting 3 100; Setting 4 65535; Setting 5 MAX_FRAME_SIZE].

(** fill_read_buffer, http2_conn.cpp:134-171.  The loop consumes the transport's answers, so it is
    structurally recursive on them.  Returns the remaining answers. *)
Fixpoint fill_read_buffer (rd : list (Z * rd_result)) (c : conn) : conn * trace * list (Z * rd_result) :=
  if lenZ (c_rbuf c) + TEMP_READ_BUFFER_SIZE >=? MAX_READ_BUFFER_SIZE then (c, [], rd)
  else
    match rd with
    | [] => (c, [], [])
    | (now, RdErr e) :: rd' =>
      let c' :=
        match e with
        | ConnectionClosed => set_state ClientClosed c
        | TransportProtocolError => set_state StProtocolError c
        | WantReadOrWrite | WriteError | OtherError => c
        end in
      (c', [EvReadError e], rd')
    | (now, RdData o) :: rd' =>
      let c' := Conn (c_state c) (c_rbuf c ++ o) (c_wbuf c) (c_dec c) (c_enc c) now in
      let '(c2, ev, rd2) := fill_read_buffer rd' c' in
      (c2, EvRead now o :: ev, rd2)
    end.

(** flush_write_buffer, http2_conn.cpp:484-510.  A transport never takes more than it is offered. *)
Definition flush_write_buffer (wr : list (Z * wr_result)) (c : conn) : conn * trace * list (Z * wr_result) :=
  match c_wbuf c with
  | [] => (c, [], wr)
  | _ :: _ =>
    let b := c_wbuf c in
    match wr with
    | [] => (c, [EvWrite 0 b [] (Error WantReadOrWrite)], [])
    | (now, WrOk n) :: wr' =>
      let n' := Z.max 0 (Z.min n (lenZ b)) in
      (Conn (c_state c) (c_rbuf c) (skipn (Z.to_nat n') b) (c_dec c) (c_enc c) now,
       [EvWrite now b (firstn (Z.to_nat n') b) (Val n')], wr')
    | (now, WrPartial k) :: wr' =>
      (set_state StProtocolError c, [EvWrite now b (firstn (Z.to_nat k) b) (Error WriteError)], wr')
    | (now, WrErr e) :: wr' =>
      (match e with WantReadOrWrite => c | _ => set_state StProtocolError c end,
       [EvWrite now b [] (Error e)], wr')
    end
  end.

(** close, http2_conn.cpp:407-416. *)
Definition close (c : conn) : conn * trace :=
  match c_state c with
  | Closing => (c, [])
  | s =>
    let o := write_goaway 1 (match s with StProtocolError => 1 | _ => 0 end) in
    (set_state Closing (enqueue o c), [EvQueue o])
  end.

(** has_timed_out, http2_conn.cpp:516-518, at time [now]. *)
Definition has_timed_out (now : Z) (c : conn) : bool := now - c_last c >? IDLE_TIMEOUT.

(** get_header, http2_conn.cpp:433-441. *)
Definition get_header (headers : list header) (name : bytes) : option bytes :=
  option_map h_value (find (fun h => bytes_eqb (h_name h) name) headers).

(** The header fields process_request adds, http2_conn.cpp:470-476. *)
Definition complete_response (r : response) : response :=
  Response (rs_status r)
    (Hdr (str ":status") (to_string (rs_status r)) :: rs_headers r ++
     (match rs_body r with [] => [] | _ :: _ => [Hdr (str "content-length") (to_string (lenZ (rs_body r)))] end) ++
     [Hdr (str "server") SERVER_HEADER; Hdr (str "x-powered-by") SERVER_HEADER])
    (rs_body r).

(** enum class ReadPrefaceResult, http2_conn.h:34. *)
Inductive preface_result := PrefaceSuccess | PrefaceNotEnoughData | PrefaceProtocolError.

(** read_preface, http2_conn.cpp:177-197. *)
Definition read_preface (c : conn) : preface_result * conn * trace :=
  if lenZ (c_rbuf c) <? lenZ CLIENT_PREFACE then (PrefaceNotEnoughData, c, [])
  else if bytes_eqb (firstn (length CLIENT_PREFACE) (c_rbuf c)) CLIENT_PREFACE then
    (PrefaceSuccess, discard (lenZ CLIENT_PREFACE) (set_state AwaitingFrame (enqueue write_settings c)),
     [EvQueue write_settings])
  else (PrefaceProtocolError, c, []).

(** handle_handshake, http2_conn.cpp:329-347: the result to return, if any. *)
Definition handle_handshake (hs : list (Z * hs_result)) (c : conn)
    : option result * conn * trace * list (Z * hs_result) :=
  match hs with
  | [] => (Some WantRead, c, [], [])
  | (now, HsOk) :: hs' =>
    (None, Conn AwaitingPreface (c_rbuf c) (c_wbuf c) (c_dec c) (c_enc c) now, [EvHandshake now], hs')
  | (now, HsErr WantReadOrWrite) :: hs' => (Some WantRead, c, [], hs')
  | (now, HsErr e) :: hs' => (Some DiscardConnection, c, [EvHandshakeError e], hs')
  end.

(** How process_frame ends: normally, with a state change, or by an exception. *)
Inductive frame_end := FrameDone | FrameState (s : conn_state) | FrameThrows.

(** What the body of the loop of internal_process does: go round again, return, throw. *)
Inductive verdict := Continue | Return (r : result) | Exception.

Section Conn.
  (** State of the application, shared by all connections; [app] is the router and its
      handlers.  [cs]: plain char is signed.  [T]: the decoder's Huffman tree. *)
  Variable W : Type.
  Variable app : request -> W -> W * app_answer.
  Variable cs : bool.
  Variable T : tree.

  (** process_request, http2_conn.cpp:443-478.  None: an exception leaves the function. *)
  Definition process_request (headers : list header) (w : W) : W * option response * trace :=
    match get_header headers (str ":path"), get_header headers (str ":method") with
    | Some path, Some method =>
      let req := Request method path headers in
      let (w', a) := app req w in
      match a with
      | Answers r => (w', Some (complete_response r), [EvRequest req (Some r)])
      | Fails =>
        let r := Response 500 [] [] in (w', Some (complete_response r), [EvRequest req (Some r)])
      | Escapes => (w', None, [EvRequest req None])
      end
    | _, _ => (w, Some (Response 400 [] []), [])
    end.

  (** process_frame, http2_conn.cpp:229-299.  It touches state_, the two tables and the output buffer;
      octets are appended to the output buffer as the EvQueue events say.  [Throw] from
      the codec (never happens, see HpackDecProofs.v and HpackEncProofs.v) leaves the
      tables as they were. *)
  Definition process_frame (f : frame) (d e : dyn_table) (w : W)
      : out (frame_end * dyn_table * dyn_table * W * trace) :=
    if f_type f =? FRAME_TYPE_SETTINGS then
      if has_flag f 1 then Ret (FrameDone, d, e, w, [])
      else
        let! settings := read_settings f in
        match settings with
        | Error _ => Ret (FrameState StProtocolError, d, e, w, [])
        | Val _ => Ret (FrameDone, d, e, w, [EvQueue write_settings_ack])
        end
    else if f_type f =? FRAME_TYPE_HEADERS then
      let! block := headers_block f in
      match hpack_decode T d block with
      | Throw => Ret (FrameThrows, d, e, w, [])
      | Undef => Undef
      | Fuel => Fuel
      | Ret (Error _, d') => Ret (FrameState StProtocolError, d', e, w, [])
      | Ret (Val hdrs, d') =>
        let '(w', resp, ev) := process_request hdrs w in
        match resp with
        | None => Ret (FrameThrows, d', e, w', ev)
        | Some resp =>
          match hpack_encode cs e (rs_headers resp) with
          | Throw => Ret (FrameThrows, d', e, w', ev)
          | Undef => Undef
          | Fuel => Fuel
          | Ret (block', e') =>
            let ending_stream := match rs_body resp with [] => true | _ :: _ => false end in
            let flags := if ending_stream then Z.lor FLAG_END_HEADERS FLAG_END_STREAM else FLAG_END_HEADERS in
            let! data := write_data_response (length (rs_body resp)) (f_stream f) (rs_body resp) in
            Ret (FrameDone, d', e', w',
                 ev ++ [EvQueue (write_headers_response (f_stream f) block' flags); EvQueue data;
                        EvLog hdrs (rs_status resp) (lenZ (rs_body resp))])
          end
        end
      end
    else if f_type f =? FRAME_TYPE_WINDOW_UPDATE then
      let! _ := read_window_update f in Ret (FrameDone, d, e, w, [])
    else if f_type f =? FRAME_TYPE_GOAWAY then Ret (FrameState ClientClosed, d, e, w, [])
    else Ret (FrameDone, d, e, w, []).

  (** try_read_frame, http2_conn.cpp:199-227, together with the switch case that calls it (379-385). *)
  Definition try_read_frame (c : conn) (w : W) : out (verdict * conn * trace * W) :=
    if lenZ (c_rbuf c) <? 9 then Ret (Return WantRead, c, [], w)
    else
      let! h := fh_parse (firstn 9 (c_rbuf c)) in
      if fh_length h >? MAX_FRAME_SIZE then Ret (Continue, set_state StProtocolError c, [], w)
      else
        let total := 9 + fh_length h in
        if lenZ (c_rbuf c) <? total then Ret (Return WantRead, c, [], w)
        else
          let payload := firstn (Z.to_nat (fh_length h)) (skipn 9 (c_rbuf c)) in
          let! (fe, d, e, w', ev) := process_frame (Frame h payload) (c_dec c) (c_enc c) w in
          let s := match fe with FrameState s => s | _ => c_state c end in
          let c' := Conn s (c_rbuf c) (c_wbuf c ++ queued ev) d e (c_last c) in
          match fe with
          | FrameThrows => Ret (Exception, c', ev, w')
          | _ => Ret (Continue, discard total c', ev, w')
          end.

  (** The switch of internal_process, http2_conn.cpp:368-403. *)
  Definition dispatch (c : conn) (w : W) : out (verdict * conn * trace * W) :=
    match c_state c with
    | AwaitingPreface =>
      match read_preface c with
      | (PrefaceSuccess, c', ev) =>
        let! (v, c2, ev2, w') := try_read_frame c' w in Ret (v, c2, ev ++ ev2, w')
      | (PrefaceNotEnoughData, c', ev) => Ret (Return WantRead, c', ev, w)
      | (PrefaceProtocolError, c', ev) => Ret (Return DiscardConnection, c', ev, w)
      end
    | AwaitingFrame => try_read_frame c w
    | Closing => Ret (Return DiscardConnection, set_state ClientClosed c, [EvShutdown], w)
    | StProtocolError => let (c', ev) := close c in Ret (Return DiscardConnection, c', ev, w)
    | ClientClosed => Ret (Return DiscardConnection, c, [], w)
    | AwaitingHandshake => Ret (Exception, c, [], w)
    end.

  (** internal_process, http2_conn.cpp:349-405. *)
  Fixpoint internal_process (fuel : nat) (s : scripts) (c : conn) (w : W)
      : out (verdict * conn * trace * W) :=
    match fuel with
    | O => Fuel
    | S fuel' =>
      let '(r, c0, ev0, hs') :=
        match c_state c with
        | AwaitingHandshake => handle_handshake (sc_hs s) c
        | _ => (None, c, [], sc_hs s)
        end in
      match r with
      | Some r => Ret (Return r, c0, ev0, w)
      | None =>
        let '(c1, ev1, wr') := flush_write_buffer (sc_wr s) c0 in
        match c_wbuf c1 with
        | _ :: _ => Ret (Return WantWrite, c1, ev0 ++ ev1, w)
        | [] =>
          let '(c2, ev2, rd') := fill_read_buffer (sc_rd s) c1 in
          let! (v, c3, ev3, w') := dispatch c2 w in
          match v with
          | Continue =>
            let! (v', c4, ev4, w2) := internal_process fuel' (Scripts hs' rd' wr') c3 w' in
            Ret (v', c4, ev0 ++ ev1 ++ ev2 ++ ev3 ++ ev4, w2)
          | _ => Ret (v, c3, ev0 ++ ev1 ++ ev2 ++ ev3, w')
          end
        end
      end
    end.

  (** Octets the loop can still consume. *)
  Definition script_octets (rd : list (Z * rd_result)) : nat :=
    length (flat_map (fun x => match snd x with RdData o => o | RdErr _ => [] end) rd).

  (** process, http2_conn.cpp:319-327. *)
  Definition process (s : scripts) (c : conn) (w : W) : out (result * conn * trace * W) :=
    let! (v, c', ev, w') := internal_process (3 + length (c_rbuf c) + script_octets (sc_rd s)) s c w in
    match v with
    | Return r => Ret (r, c', ev, w')
    | Continue => Fuel
    | Exception => Ret (DiscardConnection, set_state StProtocolError c', ev, w')
    end.
End Conn.

(** What a transport can answer: reads give 1 to 16384 octets (the size of the buffer
    passed, 141). *)
Definition scripts_ok (s : scripts) : Prop :=
  Forall (fun x => match snd x with
                   | RdData o => all_bytes o /\ 1 <= lenZ o <= TEMP_READ_BUFFER_SIZE
                   | RdErr _ => True
                   end) (sc_rd s).

(** A connection as the server drives it (http2_server.cpp:33-118): created, processed
    any number of times, dropped after DiscardConnection.  Between calls other
    connections may change the application's state as [others] allows.  [session r c tr w]:
    the last call returned [r] (None: no call yet), [tr] is everything observed. *)
Section Session.
  Variable W : Type.
  Variable app : request -> W -> W * app_answer.
  Variable cs : bool.
  Variable T : tree.
  Variable others : W -> W -> Prop.
  Variable t0 : Z.
  Variable w0 : W.
  Variable allowed : scripts -> Prop.

  (** A new connection (http2_server.cpp:47-52) and the calls of process (80-118). *)
  Inductive session : option result -> conn -> trace -> W -> Prop :=
  | session_start : session None (fresh_conn t0) [] w0
  | session_others : forall r c tr w w', session r c tr w -> others w w' -> session r c tr w'
  | session_process : forall r c tr w s r' c' ev w',
      session r c tr w -> r <> Some DiscardConnection -> scripts_ok s -> allowed s ->
      process W app cs T s c w = Ret (r', c', ev, w') ->
      session (Some r') c' (tr ++ ev) w'.
End Session.
