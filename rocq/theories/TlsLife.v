(** Model of the life of TlsTransport (lib/transports/tls_transport.cpp) and TlsContext
    (tls_context.cpp) objects: what they obtain from the TLS library and give back. *)
From Verif Require Import Base Poller SocketFd.

(** ** Transports *)
(** Transports are named like the handle they contain (client_fd_, tls_transport.h:32).
    [to_ssl]: the live transports and their data member ssl_ (None: null).  The library's
    objects are numbered; for each there is the descriptor SSL_set_fd was given and what was
    open under it.  [to_freed]: the calls of SSL_free, with what was open under that
    descriptor when the call was made. *)
Record tls_objects := TlsObjects {
  to_handles : handles;
  to_ssl : list (Z * option nat);
  to_made : list (Z * option nat);
  to_freed : list (nat * option nat) }.
(** What an open descriptor refers to; not in the code. *)
Definition open_under (fd : Z) (h : handles) : option nat := mget fd (k_open (hd_kernel h)).
(** The data member ssl_ of a live transport, tls_transport.h:33. *)
Definition ssl_of (t : Z) (s : tls_objects) : option nat := match mget t (to_ssl s) with Some p => p | None => None end.
(** The data members client_fd_, tls_transport.h:32. *)
Definition set_handles (h : handles) (s : tls_objects) : tls_objects := TlsObjects h (to_ssl s) (to_made s) (to_freed s).
(** Assignment to ssl_, tls_transport.cpp:15-38. *)
Definition set_ssl (t : Z) (p : option nat) (s : tls_objects) : tls_objects :=
  TlsObjects (to_handles s) (mput t p (to_ssl s)) (to_made s) (to_freed s).
(** SSL_free of a transport's object, if it has one. *)
Definition ssl_free (t : Z) (s : tls_objects) : tls_objects :=
  match ssl_of t s with
  | None => s
  | Some p =>
    let fd := fst (nth p (to_made s) (-1, None)) in
    TlsObjects (to_handles s) (mput t None (to_ssl s)) (to_made s) (to_freed s ++ [(p, open_under fd (to_handles s))])
  end.

(** What the constructor meets. *)
Inductive making := Made | NewFails | SetFdFails.
(** TlsTransport::TlsTransport(SocketFd&&, const TlsContext&), tls_transport.cpp:31-38, with create_ssl, tls_context.cpp:58-64.  When it throws, client_fd_ is destroyed but not ssl_ (the
    destructor does not run). *)
Definition tls_make (m : making) (t other : Z) (s : tls_objects) : tls_objects :=
  let h := sfd_move t other (to_handles s) in
  match m with
  | NewFails => set_handles (sfd_destroy t h) s
  | SetFdFails => TlsObjects (sfd_destroy t h) (to_ssl s) (to_made s ++ [(-1, None)]) (to_freed s)
  | Made =>
    let fd := fd_of t h in
    TlsObjects h (mput t (Some (length (to_made s))) (to_ssl s)) (to_made s ++ [(fd, open_under fd h)]) (to_freed s)
  end.
(** Move constructor, tls_transport.cpp:15-16. *)
Definition tls_move (t other : Z) (s : tls_objects) : tls_objects :=
  let s := set_handles (sfd_move t other (to_handles s)) s in
  set_ssl other None (set_ssl t (ssl_of other s) s).
(** Move assignment, tls_transport.cpp:18-29. *)
Definition tls_assign (t other : Z) (s : tls_objects) : tls_objects :=
  if t =? other then s
  else
    let s := ssl_free t s in
    let s := set_handles (sfd_assign t other (to_handles s)) s in
    set_ssl other None (set_ssl t (ssl_of other s) s).
(** Destructor, tls_transport.cpp:72-78; then that of client_fd_. *)
Definition tls_destroy (t : Z) (s : tls_objects) : tls_objects :=
  let s := ssl_free t s in
  TlsObjects (sfd_destroy t (to_handles s)) (mdel t (to_ssl s)) (to_made s) (to_freed s).

(** Histories.  [lucky]: SSL_set_fd never fails.  client_fd_ is private, so handles that
    belong to a transport are not touched otherwise. *)
Inductive tls_history (k0 : kernel) (lucky : bool) : tls_objects -> Prop :=
| th_start : tls_history k0 lucky (TlsObjects (Handles [] k0) [] [] [])
| th_obtain : forall s h fd, tls_history k0 lucky s -> mget h (hd_fds (to_handles s)) = None ->
    0 <= fd -> open_under fd (to_handles s) = None -> tls_history k0 lucky (set_handles (sfd_obtain h fd (to_handles s)) s)
| th_close : forall s h, tls_history k0 lucky s -> mget h (hd_fds (to_handles s)) <> None -> mget h (to_ssl s) = None ->
    tls_history k0 lucky (set_handles (sfd_close h (to_handles s)) s)
| th_gone : forall s h, tls_history k0 lucky s -> mget h (hd_fds (to_handles s)) <> None -> mget h (to_ssl s) = None ->
    tls_history k0 lucky (set_handles (sfd_destroy h (to_handles s)) s)
| th_make : forall s m t other, tls_history k0 lucky s -> (lucky = true -> m <> SetFdFails) ->
    mget t (hd_fds (to_handles s)) = None -> mget other (hd_fds (to_handles s)) <> None -> mget other (to_ssl s) = None ->
    tls_history k0 lucky (tls_make m t other s)
| th_move : forall s t other, tls_history k0 lucky s ->
    mget t (hd_fds (to_handles s)) = None -> mget other (to_ssl s) <> None -> tls_history k0 lucky (tls_move t other s)
| th_assign : forall s t other, tls_history k0 lucky s ->
    mget t (to_ssl s) <> None -> mget other (to_ssl s) <> None -> tls_history k0 lucky (tls_assign t other s)
| th_destroy : forall s t, tls_history k0 lucky s -> mget t (to_ssl s) <> None -> tls_history k0 lucky (tls_destroy t s).

(** ** The context *)
(** What the constructor of TlsContext meets, in this order. *)
Record context_setup := ContextSetup {
  cx_cert_exists : bool; cx_key_exists : bool; cx_new : bool;
  cx_cert_loads : bool; cx_key_loads : bool; cx_key_fits : bool }.
(** The calls in the constructor, tls_context.cpp:12-38. *)
Inductive context_call := CtxNew | CtxFree.
(** TlsContext::TlsContext, tls_context.cpp:10-50: whether there is an object afterwards (or
    an exception), and the calls of SSL_CTX_new that succeed and of SSL_CTX_free. *)
Definition tls_context (c : context_setup) : bool * list context_call :=
  if negb (cx_cert_exists c) then (false, [])
  else if negb (cx_key_exists c) then (false, [])
  else if negb (cx_new c) then (false, [])
  else if negb (cx_cert_loads c) then (false, [CtxNew; CtxFree])
  else if negb (cx_key_loads c) then (false, [CtxNew; CtxFree])
  else if negb (cx_key_fits c) then (false, [CtxNew; CtxFree])
  else (true, [CtxNew]).
(** Destructor, tls_context.cpp:52-56. *)
Definition tls_context_destroy (l : list context_call) : list context_call := l ++ [CtxFree].
