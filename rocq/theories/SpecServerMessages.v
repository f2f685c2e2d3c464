(** What the console tells about the connections of the server. *)
From Verif Require Import Base SpecConn AccessLog SpecApp Messages.

Fixpoint begins (p t : bytes) : bool :=
  match p, t with
  | [], _ => true
  | a :: p', b :: t' => (a =? b) && begins p' t'
  | _ :: _, [] => false
  end.
Definition ends (p t : bytes) : bool := begins (rev p) (rev t).

(** A message with the level (2: info, 3: warning) that begins so. *)
Definition says (level : Z) (p : string) (m : message) : bool :=
  (severity (m_level m) =? level) && begins (str p) (m_text m).
(** The messages that say that a connection is there, *)
Definition tells_of_new (m : message) : bool := says 2 "HTTP connection established. total = " m.
(** that one is no more: it is closed, it was idle, or (with epoll) the client has hung up, *)
Definition tells_of_end (m : message) : bool :=
  (says 2 "closing connection" m && (lenZ (m_text m) =? 18)) || says 3 "closing connection due to inactivity (fd: " m ||
  (says 3 "epoll_ctl: DEL failed (fd: " m && ends (str "): Bad file descriptor") (m_text m)).
(** and that a client came, to be served or not. *)
Definition tells_of_client (m : message) : bool :=
  says 2 "client connected (ip: " m || says 3 "server at capacity. rejecting new connection from " m.

Definition change (m : message) : Z := (if tells_of_new m then 1 else 0) - (if tells_of_end m then 1 else 0).
(** Who has counted up to [n] counts so far after the messages. *)
Definition counted (n : Z) (ms : list message) : Z := fold_left (fun n m => n + change m) ms n.
Definition clients (ms : list message) : Z := lenZ (filter tells_of_client ms).
(** The totals told are those counted. *)
Fixpoint totals (n : Z) (ms : list message) : Prop :=
  match ms with
  | [] => True
  | m :: ms' =>
    (tells_of_new m = true -> exists t, m_text m = str "HTTP connection established. total = " ++ t /\ decimal t (n + 1)) /\
    totals (n + change m) ms'
  end.

(** The text is the address of the client, if there is one. *)
Definition shown (otherwise : string) (p : peer) (t : bytes) : Prop :=
  match p with
  | PeerFails | PeerOther => t = str otherwise
  | _ => address p t
  end.
(** A message about the client [p]. *)
Definition about (p : peer) (m : message) : Prop :=
  (exists t, m = Msg LInfo (str "client connected (ip: " ++ t ++ str ")") /\ shown "unknown" p t) \/
  (exists t, m = Msg LWarn (str "server at capacity. rejecting new connection from " ++ t) /\ shown "unknown IP" p t).
(** The i-th message about a client is about that of the i-th socket from [n] on. *)
Definition named (who : nat -> peer) (n : nat) (ms : list message) : Prop :=
  forall i m, nth_error (filter tells_of_client ms) i = Some m -> about (who (n + i)%nat) m.

(** If the poller complains, a client has hung up. *)
Definition complains_of_hangups_only (ms : list message) : Prop :=
  forall m, In m ms -> begins (str "epoll_ctl") (m_text m) = true -> tells_of_end m = true.
