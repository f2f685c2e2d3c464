(** What the messages of the server loop tell at levels debug and trace.  Independent of the
    model of the messages. *)
From Verif Require Import Base SpecConn AccessLog SpecApp Messages SpecServerMessages.

(** A connection is no more: it is closed, it was idle, or the client has hung up. *)
Definition tells_of_loss (m : message) : bool :=
  (says 2 "closing connection" m && (lenZ (m_text m) =? 18)) || says 3 "closing connection due to inactivity (fd: " m ||
  says 1 "poll indicated connection closed" m.
Definition shift (m : message) : Z := (if tells_of_new m then 1 else 0) - (if tells_of_loss m then 1 else 0).
(** Who has counted up to [n] counts so far after the messages. *)
Definition tally (n : Z) (ms : list message) : Z := fold_left (fun n m => n + shift m) ms n.
(** The totals told are those counted. *)
Fixpoint true_totals (n : Z) (ms : list message) : Prop :=
  match ms with
  | [] => True
  | m :: ms' =>
    (tells_of_new m = true -> exists t, m_text m = str "HTTP connection established. total = " ++ t /\ decimal t (n + 1)) /\
    true_totals (n + shift m) ms'
  end.

(** A socket is closed; OpenSSL's state for a connection is freed. *)
Definition tells_of_close (m : message) : bool := says 0 "closing socket fd " m.
Definition tells_of_free (m : message) : bool := says 1 "freeing OpenSSL" m.
Definition closes (ms : list message) : Z := lenZ (filter tells_of_close ms).
Definition frees (ms : list message) : Z := lenZ (filter tells_of_free ms).
Definition close_line (n : bytes) : message := Msg LTrace (str "closing socket fd " ++ n).
Definition write_line (n : bytes) : message := Msg LTrace (str "will poll write events for fd " ++ n).
Definition timeout_line : message := Msg LTrace (str "poll timed out").
Definition hangup_line : message := Msg LDebug (str "poll indicated connection closed").
(** The connections told of. *)
Definition news (ms : list message) : Z := lenZ (filter tells_of_new ms).
