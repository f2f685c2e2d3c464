(** Model of lib/socket_fd.cpp: class SocketFd, as operations on the handles of a
    program.  Handles have names (their addresses). *)
From Verif Require Import Base Poller.

(** The live handles with their data member fd_, and the operating system. *)
Record handles := Handles { hd_fds : list (Z * Z); hd_kernel : kernel }.
(** The data member fd_ of a live handle, socket_fd.h:26. *)
Definition fd_of (h : Z) (s : handles) : Z := match mget h (hd_fds s) with Some fd => fd | None => -1 end.
(** Assignment to fd_, socket_fd.cpp:13-26,59-65. *)
Definition set_fd (h fd : Z) (s : handles) : handles := Handles (mput h fd (hd_fds s)) (hd_kernel s).

(** SocketFd::close, socket_fd.cpp:59-65. *)
Definition sfd_close (h : Z) (s : handles) : handles :=
  if fd_of h s >=? 0 then set_fd h (-1) (Handles (hd_fds s) (k_close (fd_of h s) (hd_kernel s))) else s.
(** SocketFd::SocketFd(int), 13, given a descriptor the system has just made. *)
Definition sfd_obtain (h fd : Z) (s : handles) : handles := set_fd h fd (Handles (hd_fds s) (k_new fd (hd_kernel s))).
(** The same without a descriptor, socket_fd.h:12. *)
Definition sfd_empty (h : Z) (s : handles) : handles := set_fd h (-1) s.
(** Move constructor, socket_fd.cpp:15-17. *)
Definition sfd_move (h other : Z) (s : handles) : handles := set_fd other (-1) (set_fd h (fd_of other s) s).
(** Move assignment, socket_fd.cpp:19-26. *)
Definition sfd_assign (h other : Z) (s : handles) : handles :=
  if h =? other then s
  else
    let s := sfd_close h s in
    let s := set_fd h (fd_of other s) s in
    set_fd other (-1) s.
(** Destructor, socket_fd.cpp:28-30. *)
Definition sfd_destroy (h : Z) (s : handles) : handles :=
  let s := sfd_close h s in Handles (mdel h (hd_fds s)) (hd_kernel s).

(** Histories: objects are constructed where there is none and used where there is one;
    the system hands out descriptors that are not in use. *)
Inductive history (k0 : kernel) : handles -> Prop :=
| hist_start : history k0 (Handles [] k0)
| hist_obtain : forall s h fd, history k0 s -> mget h (hd_fds s) = None ->
    0 <= fd -> mget fd (k_open (hd_kernel s)) = None -> history k0 (sfd_obtain h fd s)
| hist_empty : forall s h, history k0 s -> mget h (hd_fds s) = None -> history k0 (sfd_empty h s)
| hist_move : forall s h other, history k0 s -> mget h (hd_fds s) = None -> mget other (hd_fds s) <> None ->
    history k0 (sfd_move h other s)
| hist_assign : forall s h other, history k0 s -> mget h (hd_fds s) <> None -> mget other (hd_fds s) <> None ->
    history k0 (sfd_assign h other s)
| hist_close : forall s h, history k0 s -> mget h (hd_fds s) <> None -> history k0 (sfd_close h s)
| hist_destroy : forall s h, history k0 s -> mget h (hd_fds s) <> None -> history k0 (sfd_destroy h s).
