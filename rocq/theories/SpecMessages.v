(** What the console should show. *)
From Verif Require Import Base SpecFrames SpecConn Http AccessLog Messages.

(** Visible ASCII characters and spaces. *)
Definition printable (s : bytes) : Prop := Forall (fun c => 32 <= c <= 126) s.
(** Messages of level warning or above. *)
Definition alarming (m : message) : Prop := m_level m = LWarn \/ m_level m = LErr \/ m_level m = LCritical.
Definition alarmed (ms : list message) : Prop := exists m, In m ms /\ alarming m.
(** Those of level info. *)
Definition infos (ms : list message) : list message := filter (fun m => match m_level m with LInfo => true | _ => false end) ms.

(** The text [s] consists of the lines [ls]. *)
Definition is_lines (s : bytes) (ls : list bytes) : Prop :=
  s = concat (map (fun l => l ++ [10]) ls) /\ Forall (fun l => ~ In 10 l) ls.
(** How levels are called, and which ones a level lets through. *)
Definition level_word (l : level) (s : bytes) : Prop :=
  match l with
  | LTrace => s = str "trace" | LDebug => s = str "debug" | LInfo => s = str "info" | LWarn => s = str "warning"
  | LErr => s = str "error" | LCritical => s = str "critical" | LOff => s = str "off"
  end.
Definition levels : list level := [LTrace; LDebug; LInfo; LWarn; LErr; LCritical; LOff].
Definition less_severe (x l : level) : Prop := exists a b c, levels = a ++ x :: b ++ l :: c.
(** The lines of the messages that the level [l] does not hide: time and level in brackets,
    then what marks the trace, then the text. *)
Inductive shown (l : level) : list (bytes * bytes) -> list message -> list bytes -> Prop :=
| shown_none : shown l [] [] []
| shown_hidden : forall mk marks m ms ls, less_severe (m_level m) l -> shown l marks ms ls -> shown l (mk :: marks) (m :: ms) ls
| shown_line : forall stamp trace marks m ms ls word, ~ less_severe (m_level m) l -> level_word (m_level m) word -> shown l marks ms ls ->
    shown l ((stamp, trace) :: marks) (m :: ms) ((str "[" ++ stamp ++ str "] [" ++ word ++ str "] " ++ trace ++ m_text m) :: ls).

(** What is reported of an event at level info: the preface (known by the SETTINGS frame that
    answers it) and every response. *)
Definition settings_octets : bytes :=
  [0; 0; 18; 4; 0; 0; 0; 0; 0; 0; 3; 0; 0; 0; 100; 0; 4; 0; 0; 255; 255; 0; 5; 0; 0; 64; 0].
Inductive told : event -> list message -> Prop :=
| told_preface : told (EvQueue settings_octets) [Msg LInfo (str "valid HTTP/2 preface received")]
| told_response : forall hs status n, decimal n status ->
    told (EvLog hs status 0) [Msg LInfo (n ++ str " status code sent w/headers")]
| told_body : forall hs status size n k, decimal n status -> decimal k size -> size <> 0 ->
    told (EvLog hs status size)
      [Msg LInfo (n ++ str " status code sent w/headers"); Msg LInfo (str "sending response body (length: " ++ k ++ str ")")]
| told_nothing : forall e, (forall hs st sz, e <> EvLog hs st sz) -> e <> EvQueue settings_octets -> told e [].
Definition tells (tr : trace) (ms : list message) : Prop := exists mss, Forall2 told tr mss /\ ms = concat mss.

(** The client told the server that it goes away: after whole frames, a GOAWAY frame. *)
Definition client_left (o : bytes) : Prop :=
  exists fs a f b rest, o = rfc_preface ++ a ++ b ++ rest /\ frames_octets fs a /\ frame_octets f b /\ w_type f = 7.

(** Events that should not cause alarm: all but failed reads and writes, and exceptions. *)
Definition calm (e : event) : Prop :=
  match e with
  | EvReadError TransportProtocolError | EvReadError WriteError | EvReadError OtherError => False
  | EvWrite _ _ _ (Error x) => x = WantReadOrWrite
  | EvRequest _ None => False
  | _ => True
  end.
(** A request that lacks :path or :method. *)
Definition incomplete_request (e : event) : Prop :=
  match e with EvLog hs _ _ => no_field hs (str ":path") \/ no_field hs (str ":method") | _ => False end.
