(** What the messages of a connection tell at level trace: an account of the octets that come
    and go.  Independent of the model of connections. *)
From Verif Require Import Base Http AccessLog Messages SpecHpackTrace.

Definition read_line (n now : Z) : message := Msg LTrace (str "read " ++ to_string n ++ str " bytes, buffer size now " ++ to_string now).
Definition flushed_line (n : Z) : message := Msg LTrace (str "flushed " ++ to_string n ++ str " bytes from write buffer").
Definition busy_line : message := Msg LTrace (str "transport busy, write will be resumed later").
Definition shaken_line : message := Msg LTrace (str "transport handshake complete").
Definition short_line (what : bytes) (n need : Z) : message :=
  Msg LTrace (str "not enough data for " ++ what ++ str " (" ++ to_string n ++ str " < " ++ to_string need ++ str ")").
Definition piece_line (size rem : Z) : message :=
  Msg LTrace (str "enqueuing data frame for write (size: " ++ to_string size ++ str ", rem: " ++ to_string rem ++ str ")").
Definition preface_line : message := Msg LInfo (str "valid HTTP/2 preface received").
Definition head_line (type : Z) (flags : bytes) (len : Z) : message :=
  Msg LDebug (str "received frame header: type: " ++ to_string type ++ str ", flag: " ++ flags ++ str ", length: " ++ to_string len).
Definition big_line (len : Z) : message := Msg LWarn (str "frame too big (sz: " ++ to_string len ++ str ", max: 16384)").
Definition round_line (state : bytes) : message := Msg LTrace (str "processing state: " ++ state).

(** The messages that belong to the account. *)
Definition a_digit (t : bytes) : bool := match t with d :: _ => (48 <=? d) && (d <=? 57) | [] => false end.
Definition accounted (m : message) : bool :=
  let t := m_text m in
  match m_level m with
  | LTrace =>
    starts (str "read ") t && a_digit (skipn 5 t) || starts (str "flushed ") t || starts (str "transport busy") t ||
    starts (str "transport handshake ") t || starts (str "enqueuing ") t || starts (str "not enough data ") t || starts (str "processing state: ") t
  | LDebug => starts (str "received frame header: ") t
  | LInfo => starts (str "valid HTTP/2 preface ") t
  | _ => false
  end.

(** The frames for a body of a given size: as long as can be, and what is left. *)
Inductive pieces : Z -> list message -> Prop :=
| no_piece : pieces 0 []
| last_piece : forall n, 1 <= n <= 16256 -> pieces n [piece_line n 0]
| full_piece : forall n ls, 1 <= n -> pieces n ls -> pieces (16256 + n) (piece_line 16256 n :: ls).

(** [account n tr ms n']: the messages [ms] tell of the events [tr], in this order, on a
    connection that had [n] octets which had arrived and were still to be read, and [n'] in
    the end.  24 octets go with the preface, those of its header and its content with each
    frame. *)
Inductive account : Z -> trace -> list message -> Z -> Prop :=
| acc_end : forall n, account n [] [] n
| acc_event : forall n e tr ms n',
    match e with EvHandshake _ | EvRead _ _ | EvWrite _ _ _ (Val _) | EvWrite _ _ _ (Error WantReadOrWrite) | EvRequest _ _ => False | _ => True end ->
    account n tr ms n' -> account n (e :: tr) ms n'
| acc_other : forall n tr m ms n', accounted m = false -> account n tr ms n' -> account n tr (m :: ms) n'
| acc_round : forall n tr s ms n', account n tr ms n' -> account n tr (round_line s :: ms) n'
| acc_handshake : forall n t tr ms n', account n tr ms n' -> account n (EvHandshake t :: tr) (shaken_line :: ms) n'
| acc_read : forall n t o tr ms n',
    account (n + lenZ o) tr ms n' -> account n (EvRead t o :: tr) (read_line (lenZ o) (n + lenZ o) :: ms) n'
| acc_write : forall n t b taken k tr ms n',
    account n tr ms n' -> account n (EvWrite t b taken (Val k) :: tr) (flushed_line (lenZ taken) :: ms) n'
| acc_busy : forall n t b tr ms n', account n tr ms n' -> account n (EvWrite t b [] (Error WantReadOrWrite) :: tr) (busy_line :: ms) n'
| acc_answer : forall n rq r ls tr ms n',
    pieces (lenZ (rs_body r)) ls -> account n tr ms n' -> account n (EvRequest rq (Some r) :: tr) (ls ++ ms) n'
| acc_no_answer : forall n rq tr ms n', account n tr ms n' -> account n (EvRequest rq None :: tr) ms n'
| acc_preface : forall n tr ms n', 24 <= n -> account (n - 24) tr ms n' -> account n tr (preface_line :: ms) n'
| acc_short_preface : forall n tr ms n', n < 24 -> account n tr ms n' -> account n tr (short_line (str "preface") n 24 :: ms) n'
| acc_short_header : forall n tr ms n', n < 9 -> account n tr ms n' -> account n tr (short_line (str "frame header") n 9 :: ms) n'
| acc_big : forall n t f len tr ms n', 9 <= n -> 16384 < len -> account n tr ms n' -> account n tr (head_line t f len :: big_line len :: ms) n'
| acc_short_frame : forall n t f len tr ms n', 9 <= n < 9 + len -> len <= 16384 ->
    account n tr ms n' -> account n tr (head_line t f len :: short_line (str "whole frame") n (9 + len) :: ms) n'
| acc_frame : forall n t f len tr ms n', 0 <= len <= 16384 -> 9 + len <= n ->
    account (n - (9 + len)) tr ms n' -> account n tr (head_line t f len :: ms) n'.

(** What the transport gave and took, and the messages about that. *)
Definition reads (tr : trace) : list bytes := flat_map (fun e => match e with EvRead _ o => [o] | _ => [] end) tr.
Definition writes (tr : trace) : list bytes := flat_map (fun e => match e with EvWrite _ _ taken (Val _) => [taken] | _ => [] end) tr.
Definition at_trace (m : message) : bool := match m_level m with LTrace => true | _ => false end.
Definition is_read (m : message) : bool := at_trace m && starts (str "read ") (m_text m) && a_digit (skipn 5 (m_text m)).
Definition is_flushed (m : message) : bool := at_trace m && starts (str "flushed ") (m_text m).
