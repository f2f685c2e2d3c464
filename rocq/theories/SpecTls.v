(** What TLS connections that share a thread may expect of each other. *)
From Verif Require Import Base Http Transport Tls.

(** ** One call *)
Inductive answer := Served | Wait | Over.
(** What the call should come to, by what happens on its own connection. *)
Definition own_outcome (c : tls_call) : outcome :=
  match c with CallHandshake o => o | CallRead _ o _ _ => o | CallWrite _ o _ _ _ => o end.
Definition deserved (c : tls_call) : answer :=
  match own_outcome c with TlsDone => Served | TlsWants _ => Wait | _ => Over end.
(** What the transport says. *)
Definition said (r : tls_report) : answer :=
  match r with
  | RepHandshake HsOk => Served
  | RepRead (RdData _) => Served
  | RepWrite (WrOk _) => Served
  | RepHandshake (HsErr WantReadOrWrite) => Wait
  | RepRead (RdErr WantReadOrWrite) => Wait
  | RepWrite (WrErr WantReadOrWrite) => Wait
  | _ => Over
  end.
(** What the library returns: octets, or all that was offered (less than 2 GiB, see C95) is
    written; or no positive number. *)
Definition sane (c : tls_call) : Prop :=
  match c with
  | CallHandshake _ => True
  | CallRead _ TlsDone data _ => data <> []
  | CallRead _ _ _ ret => ret <= 0
  | CallWrite _ TlsDone size taken _ => taken = size /\ 0 <= size < 2147483648
  | CallWrite _ _ _ _ ret => ret < 0
  end.

(** ** What calls do to each other *)
(** After it, errors may be left. *)
Definition harmful (c : tls_call) : Prop :=
  match c with
  | CallHandshake (TlsFails e (_ :: es)) =>
      es <> [] \/ err_lib e = 2 \/ err_reason e = 294
  | CallRead _ (TlsFails _ _) _ _ => True
  | CallWrite _ (TlsFails _ _) _ _ _ => True
  | _ => False
  end.
(** Before anything else, it removes what is left. *)
Definition empties (c : tls_call) : Prop :=
  match c with CallHandshake _ => True | CallRead b _ _ _ => b = true | CallWrite b _ _ _ _ => b = true end.
(** Nothing can be left of the calls [l]. *)
Definition clean (l : list (nat * tls_call)) : Prop :=
  forall l1 x l2, l = l1 ++ x :: l2 -> harmful (snd x) -> exists y, In y l2 /\ empties (snd y).
(** A read or a write failed, and nothing removed the errors since. *)
Definition left_over (l : list (nat * tls_call)) : Prop :=
  exists l1 n c l2, l = l1 ++ (n, c) :: l2 /\
    match c with CallHandshake _ => False | _ => exists e es, own_outcome c = TlsFails e es end /\
    forall y, In y l2 -> ~ empties (snd y).
(** No error is one of the system. *)
Definition proper (l : list (nat * tls_call)) : Prop :=
  forall x e es e', In x l -> own_outcome (snd x) = TlsFails e es -> In e' (e :: es) -> err_lib e' <> 2.

(** ** The calls of the server's connections *)
(** The observations [h] show the reports [l], in their order, and no others. *)
Inductive shows : list (nat * tls_report) -> list (nat * event) -> Prop :=
| shows_end : shows [] []
| shows_wait : forall l h n, shows l h -> shows ((n, RepHandshake (HsErr WantReadOrWrite)) :: l) h
| shows_handshake : forall l h n t, shows l h -> shows ((n, RepHandshake HsOk) :: l) ((n, EvHandshake t) :: h)
| shows_handshake_error : forall l h n e, e <> WantReadOrWrite -> shows l h ->
    shows ((n, RepHandshake (HsErr e)) :: l) ((n, EvHandshakeError e) :: h)
| shows_read : forall l h n t o, shows l h -> shows ((n, RepRead (RdData o)) :: l) ((n, EvRead t o) :: h)
| shows_read_error : forall l h n e, shows l h -> shows ((n, RepRead (RdErr e)) :: l) ((n, EvReadError e) :: h)
| shows_write : forall l h n t a b k, shows l h -> shows ((n, RepWrite (WrOk k)) :: l) ((n, EvWrite t a b (Val k)) :: h)
| shows_partial : forall l h n t a b k, shows l h -> shows ((n, RepWrite (WrPartial k)) :: l) ((n, EvWrite t a b (Error WriteError)) :: h)
| shows_write_error : forall l h n t a b e, shows l h -> shows ((n, RepWrite (WrErr e)) :: l) ((n, EvWrite t a b (Error e)) :: h)
| shows_queue : forall l h n o, shows l h -> shows l ((n, EvQueue o) :: h)
| shows_request : forall l h n r a, shows l h -> shows l ((n, EvRequest r a) :: h)
| shows_log : forall l h n hs st sz, shows l h -> shows l ((n, EvLog hs st sz) :: h)
| shows_shutdown : forall l h n, shows l h -> shows l ((n, EvShutdown) :: h).

(** An observation after which the connection is no longer used. *)
Definition gives_up (ev : event) : bool :=
  match ev with
  | EvHandshakeError _ => true
  | EvReadError ConnectionClosed | EvReadError TransportProtocolError => true
  | EvWrite _ _ _ (Error WantReadOrWrite) => false
  | EvWrite _ _ _ (Error _) => true
  | _ => false
  end.
