(** What messages at level debug are about.  Independent of the model of connections. *)
From Verif Require Import Base SpecFrames Http Conn AccessLog Messages SpecConn.

(** The messages above level debug. *)
Definition louder (ms : list message) : list message :=
  filter (fun m => match m_level m with LDebug | LTrace => false | _ => true end) ms.

(** The lines for the fields of a request, in one piece. *)
Definition field_line (h : header) : message := Msg LDebug (str " - request header: " ++ h_name h ++ str ": " ++ h_value h).
Definition shows (ms : list message) (hs : list header) : Prop := exists a b, ms = a ++ map field_line hs ++ b.

(** A request, the messages about it and what became of it: its fields, one line each, then
    what the application had to say when it handled the request, in a state of the kind
    [kind]. *)
Definition answer_of (a : app_answer) : option response :=
  match a with Answers r => Some r | Fails => Some (Response 500 [] []) | Escapes => None end.
Definition treated {W} (app : request -> W -> W * app_answer) (says : request -> W -> list message) (kind : W -> Prop)
    (ms : list message) (rq : request) (a : option response) : Prop :=
  exists w before after, kind w /\ ms = before ++ map field_line (rq_headers rq) ++ says rq w ++ after /\ a = answer_of (snd (app rq w)).

(** Messages about states, and a life told by them. *)
Definition about_states (m : message) : Prop := m_level m = LDebug /\ exists rest, m_text m = str "connection state changed from " ++ rest.
Definition change (s s' : bytes) : message := Msg LDebug (str "connection state changed from " ++ s ++ str " to " ++ s').
(** Which state may follow which: handshake, preface and frames in this order, errors and the
    end of the connection at any time after the handshake, closing only after an error. *)
Inductive follows : bytes -> bytes -> Prop :=
| after_handshake : follows (str "AwaitingHandshake") (str "AwaitingPreface")
| after_preface : follows (str "AwaitingPreface") (str "AwaitingFrame")
| error : forall s, s <> str "AwaitingHandshake" -> s <> str "ProtocolError" -> follows s (str "ProtocolError")
| after_error : follows (str "ProtocolError") (str "Closing")
| closed : forall s, s <> str "AwaitingHandshake" -> s <> str "ClientClosed" -> follows s (str "ClientClosed").
Inductive life : bytes -> list message -> bytes -> Prop :=
| life_end : forall s, life s [] s
| life_other : forall s m ms s', ~ about_states m -> life s ms s' -> life s (m :: ms) s'
| life_change : forall s s1 ms s', follows s s1 -> life s1 ms s' -> life s (change s s1 :: ms) s'.
(** The states, by their names. *)
Definition state_names : list (conn_state * bytes) :=
  [(AwaitingHandshake, str "AwaitingHandshake"); (AwaitingPreface, str "AwaitingPreface"); (AwaitingFrame, str "AwaitingFrame");
   (StProtocolError, str "ProtocolError"); (ClientClosed, str "ClientClosed"); (Closing, str "Closing")].

(** The messages for a frame that has arrived: its header and its kind. *)
Definition hex_pair (n : Z) : bytes :=
  [nth (Z.to_nat (n / 16)) (str "0123456789abcdef") 0; nth (Z.to_nat (n mod 16)) (str "0123456789abcdef") 0].
Definition head_line (f : wframe) : message :=
  Msg LDebug (str "received frame header: type: " ++ to_string (w_type f) ++ str ", flag: 0x" ++ hex_pair (w_flags f) ++
              str ", length: " ++ to_string (lenZ (w_payload f))).
Definition kind_line (f : wframe) : message :=
  Msg LDebug
    (match w_type f with
     | 1 => str "received HEADERS frame for stream " ++ to_string (w_stream f)
     | 4 => str "received SETTINGS frame (stream=" ++ to_string (w_stream f) ++ str " flags=" ++ to_string (w_flags f) ++ str ")"
     | 7 => str "received GOAWAY frame (stream " ++ to_string (w_stream f) ++ str ")"
     | 8 => str "received WINDOW_UPDATE frame for stream " ++ to_string (w_stream f)
     | t => str "received unknown frame type: " ++ to_string t
     end).
Definition about_frames (m : message) : Prop :=
  m_level m = LDebug /\ exists start rest, m_text m = start ++ rest /\
    In start [str "received HEADERS "; str "received SETTINGS frame "; str "received GOAWAY "; str "received WINDOW_UPDATE "; str "received unknown "].
(** Messages that tell of these frames, in this order and of no others; each time the header
    comes first. *)
Inductive tells_of : list message -> list wframe -> Prop :=
| of_none : tells_of [] []
| of_other : forall m ms fs, ~ about_frames m -> tells_of ms fs -> tells_of (m :: ms) fs
| of_frame : forall f ms fs, tells_of ms fs -> tells_of (head_line f :: kind_line f :: ms) (f :: fs).
