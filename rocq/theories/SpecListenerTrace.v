(** What the listener's messages and exceptions tell about its calls. *)
From Verif Require Import Base SpecConn AccessLog Messages Listener.

(** The name under which a call that failed is told. *)
Inductive named : syscall -> bytes -> Prop :=
| named_socket : forall d t p, named (SysSocket d t p) (str "socket")
| named_get : forall fd, named (SysGetFlags fd) (str "fcntl F_GETFL")
| named_set : forall fd f, named (SysSetFlags fd f) (str "fcntl F_SETFL")
| named_reuse : forall fd v, named (SysSetOption fd 1 2 v) (str "setsockopt SO_REUSEADDR")
| named_bind : forall fd a, named (SysBind fd a) (str "bind")
| named_listen : forall fd b, named (SysListen fd b) (str "listen")
| named_accept : forall fd, named (SysAccept fd) (str "accept").
Definition is_close (x : syscall * Z) : Prop := exists fd, fst x = SysClose fd.

Section Told.
  Variable system : calls_made -> syscall -> Z * Z.
  Variable reason : Z -> bytes.
  (** The messages [ms] that go with the calls [l], made after the calls [tr] and answered by
      the system: one for each socket closed and one for each option "no delay" refused. *)
  Inductive told : calls_made -> calls_made -> list message -> Prop :=
  | told_end : forall tr, told tr [] []
  | told_close : forall tr fd n r l ms, r = fst (system tr (SysClose fd)) -> decimal n fd -> told (tr ++ [(SysClose fd, r)]) l ms ->
      told tr ((SysClose fd, r) :: l) (Msg LTrace (str "closing socket fd " ++ n) :: ms)
  | told_refused : forall tr fd r v l ms, r = fst (system tr (SysSetOption fd 6 1 v)) -> r < 0 -> told (tr ++ [(SysSetOption fd 6 1 v, r)]) l ms ->
      told tr ((SysSetOption fd 6 1 v, r) :: l)
        (Msg LWarn (str "failed to set TCP_NODELAY on client fd: " ++ reason (snd (system tr (SysSetOption fd 6 1 v)))) :: ms)
  | told_nothing : forall tr c r l ms, r = fst (system tr c) -> (forall fd, c <> SysClose fd) -> (r < 0 -> forall fd v, c <> SysSetOption fd 6 1 v) ->
      told (tr ++ [(c, r)]) l ms -> told tr ((c, r) :: l) ms.
  (** The exception [t] that ends the calls [l], made after [tr]: it names the call that
      failed and the system's reason, and after it sockets are closed, no more. *)
  Definition blames (t : bytes) (tr l : calls_made) : Prop := exists l1 c r n l2,
    l = l1 ++ (c, r) :: l2 /\ r = fst (system (tr ++ l1) c) /\ r < 0 /\ named c n /\
    t = n ++ str ": " ++ reason (snd (system (tr ++ l1) c)) /\
    (forall c' r', In (c', r') l1 -> 0 <= r' /\ forall fd, c' <> SysClose fd) /\ Forall is_close l2.
End Told.

(** How often a socket with descriptor [fd] is made and closed by calls. *)
Definition makes (fd : Z) (x : syscall * Z) : bool :=
  match fst x with SysSocket _ _ _ | SysAccept _ => (snd x =? fd) && (0 <=? snd x) | _ => false end.
Definition shuts (fd : Z) (x : syscall * Z) : bool := match fst x with SysClose fd' => fd' =? fd | _ => false end.
(** The message that a socket with descriptor [n] is closed. *)
Definition tells_closing (n : bytes) (m : message) : bool := bytes_eqb (m_text m) (str "closing socket fd " ++ n).
Definition count {A} (f : A -> bool) (l : list A) : nat := length (filter f l).
