(** Model of lib/pollers/: the event types, their conversions and the two pollers.  The
    operating system's constants are those of Linux (poll(2) has the same values on
    macOS). *)
From Verif Require Import Base.

(** Association lists stand for std::map and std::unordered_map; their order is not
    observable in the code modelled here. *)
Section Map.
  Context {V : Type}.
  (** find of a map (e.g. http2_server.cpp:81). *)
  Fixpoint mget (k : Z) (m : list (Z * V)) : option V :=
    match m with [] => None | (k', v) :: m' => if k =? k' then Some v else mget k m' end.
  (** erase of a map (e.g. epoll_poller.cpp:69). *)
  Definition mdel (k : Z) (m : list (Z * V)) : list (Z * V) := filter (fun x => negb (k =? fst x)) m.
  (** operator[] of a map, assigned to (e.g. epoll_poller.cpp:62). *)
  Definition mput (k : Z) (v : V) (m : list (Z * V)) : list (Z * V) := (k, v) :: mdel k m.
  (** contains of a map (e.g. epoll_poller.cpp:56). *)
  Definition mhas (k : Z) (m : list (Z * V)) : bool := match mget k m with Some _ => true | None => false end.
End Map.

(** enum class PollEventType, poller.h:11, and has_event, 31-33. *)
Definition PNone := 0.
(** poller.h:11. *)
Definition PRead := 1.
(** poller.h:11. *)
Definition PWrite := 2.
(** poller.h:11. *)
Definition PHangup := 4.
(** poller.h:11. *)
Definition PError := 8.
(** has_event, poller.h:31-33. *)
Definition has_event (events check : Z) : bool := negb (Z.land events check =? 0).

(** <sys/epoll.h>; epoll_poller.cpp:26,36. *)
Definition EPOLLIN := 1.
(** <sys/epoll.h>; epoll_poller.cpp:29,39. *)
Definition EPOLLOUT := 4.
(** <sys/epoll.h>; epoll_poller.cpp:45. *)
Definition EPOLLERR := 8.
(** <sys/epoll.h>; epoll_poller.cpp:42. *)
Definition EPOLLHUP := 16.
(** EPollPoller::to_epoll_events, epoll_poller.cpp:23-32. *)
Definition to_epoll_events (events : Z) : Z :=
  let result := 0 in
  let result := if has_event events PRead then Z.lor result EPOLLIN else result in
  let result := if has_event events PWrite then Z.lor result EPOLLOUT else result in
  result.
(** EPollPoller::from_epoll_events, epoll_poller.cpp:34-49. *)
Definition from_epoll_events (events : Z) : Z :=
  let result := PNone in
  let result := if negb (Z.land events EPOLLIN =? 0) then Z.lor result PRead else result in
  let result := if negb (Z.land events EPOLLOUT =? 0) then Z.lor result PWrite else result in
  let result := if negb (Z.land events EPOLLHUP =? 0) then Z.lor result PHangup else result in
  let result := if negb (Z.land events EPOLLERR =? 0) then Z.lor result PError else result in
  result.

(** <poll.h>; poll_poller.cpp:12,22. *)
Definition POLLIN := 1.
(** <poll.h>; poll_poller.cpp:15,25. *)
Definition POLLOUT := 4.
(** <poll.h>; poll_poller.cpp:31. *)
Definition POLLERR := 8.
(** <poll.h>; poll_poller.cpp:28. *)
Definition POLLHUP := 16.
(** PollPoller::event_from_poll_event, poll_poller.cpp:9-18. *)
Definition event_from_poll_event (events : Z) : Z :=
  let result := 0 in
  let result := if has_event events PRead then Z.lor result POLLIN else result in
  let result := if has_event events PWrite then Z.lor result POLLOUT else result in
  result.
(** PollPoller::event_to_poll_event, poll_poller.cpp:20-35. *)
Definition event_to_poll_event (events : Z) : Z :=
  let result := PNone in
  let result := if negb (Z.land events POLLIN =? 0) then Z.lor result PRead else result in
  let result := if negb (Z.land events POLLOUT =? 0) then Z.lor result PWrite else result in
  let result := if negb (Z.land events POLLHUP =? 0) then Z.lor result PHangup else result in
  let result := if negb (Z.land events POLLERR =? 0) then Z.lor result PError else result in
  result.

(** What the operating system knows about the process: its open descriptors, each with
    the number of the socket (or other object) it stands for; the interest list of the
    epoll instance; how many objects there have been; what the calls of close(2) closed
    (None: the descriptor was not open). *)
Record kernel := Kernel { k_open : list (Z * nat); k_watch : list (Z * Z); k_objects : nat; k_closed : list (option nat) }.
(** A new descriptor [fd] for a new object. *)
Definition k_new (fd : Z) (k : kernel) : kernel :=
  Kernel (mput fd (k_objects k) (k_open k)) (k_watch k) (S (k_objects k)) (k_closed k).
(** close(2); closing the only descriptor of an object takes it off the interest list. *)
Definition k_close (fd : Z) (k : kernel) : kernel :=
  match mget fd (k_open k) with
  | None => Kernel (k_open k) (k_watch k) (k_objects k) (k_closed k ++ [None])
  | Some n => Kernel (mdel fd (k_open k)) (mdel fd (k_watch k)) (k_objects k) (k_closed k ++ [Some n])
  end.
(** epoll_ctl(2): whether it succeeds.  [ok]: there is no lack of resources. *)
Inductive ctl := CtlAdd | CtlMod | CtlDel.
(** epoll_ctl(2), epoll_poller.cpp:51-70. *)
Definition epoll_ctl (ok : bool) (op : ctl) (fd mask : Z) (k : kernel) : bool * kernel :=
  let set_watch w := (true, Kernel (k_open k) w (k_objects k) (k_closed k)) in
  if negb (mhas fd (k_open k)) then (false, k)
  else match op, mhas fd (k_watch k) with
       | CtlAdd, false | CtlMod, true => if ok then set_watch (mput fd mask (k_watch k)) else (false, k)
       | CtlDel, true => set_watch (mdel fd (k_watch k))
       | _, _ => (false, k)
       end.

(** The data members of the pollers (epoll_poller.h:24-26, poll_poller.h:20): registered
    descriptors with their interest, and the number of entries of events_buffer_. *)
Record poller := Poller { p_fds : list (Z * Z); p_size : Z }.
Section Poller.
  (** Poller::create, poller.cpp:11-17: epoll on Linux, poll elsewhere. *)
  Variable linux : bool.
  (** The new poller of start, http2_server.cpp:126; epoll_poller.cpp:10-15. *)
  Definition new_poller : poller := Poller [] 64.
  (** EPollPoller::set, epoll_poller.cpp:51-63; PollPoller::set, poll_poller.cpp:68-70. *)
  Definition poller_set (ok : bool) (fd events : Z) (p : poller) (k : kernel) : poller * kernel :=
    if linux then
      let op := if mhas fd (p_fds p) then CtlMod else CtlAdd in
      match epoll_ctl ok op fd (to_epoll_events events) k with
      | (false, k') => (p, k')
      | (true, k') => (Poller (mput fd events (p_fds p)) (p_size p), k')
      end
    else (Poller (mput fd events (p_fds p)) (p_size p), k).
  (** EPollPoller::remove, epoll_poller.cpp:65-70; PollPoller::remove, poll_poller.cpp:72-74. *)
  Definition poller_remove (fd : Z) (p : poller) (k : kernel) : poller * kernel :=
    let k' := if linux then snd (epoll_ctl true CtlDel fd 0 k) else k in
    (Poller (mdel fd (p_fds p)) (p_size p), k').

  (** epoll_wait(2) and poll(2) report descriptors of the interest list, each at most
      once; epoll_wait at most as many as there is room for.  [evs] is what the system
      would like to report: descriptor, mask and anything else. *)
  Fixpoint distinct {A} (seen : list Z) (evs : list (Z * A)) : list (Z * A) :=
    match evs with
    | [] => []
    | (fd, x) :: evs' => if existsb (Z.eqb fd) seen then distinct seen evs' else (fd, x) :: distinct (fd :: seen) evs'
    end.
  (** epoll_wait(2), epoll_poller.cpp:72-100, and poll(2), poll_poller.cpp:46. *)
  Definition k_wait {A} (p : poller) (k : kernel) (evs : list (Z * A)) : list (Z * A) :=
    if linux then firstn (Z.to_nat (p_size p)) (distinct [] (filter (fun x => mhas (fst x) (k_watch k)) evs))
    else distinct [] (filter (fun x => mhas (fst x) (p_fds p)) evs).
  (** enum class PollError, poller.h:9. *)
  Inductive poll_error := PollErrorOther | PollInterrupted | PollTimeout.
  (** What the system call gives: nothing in time, an error (interrupted or not), events. *)
  Inductive wait_result (A : Type) := WaitNothing | WaitFails (eintr : bool) | WaitEvents (evs : list (Z * A)).
  (** EPollPoller::poll, epoll_poller.cpp:72-100; PollPoller::poll, poll_poller.cpp:37-66.
      An event is a descriptor with a mask (and whatever goes with it). *)
  Definition poller_poll {A} (r : wait_result (Z * A)) (p : poller) (k : kernel)
      : expected poll_error (list (Z * (Z * A))) * poller :=
    match r with
    | WaitNothing _ => (Error PollTimeout, p)
    | WaitFails _ eintr => (Error (if eintr then PollInterrupted else PollErrorOther), p)
    | WaitEvents _ evs =>
      match k_wait p k evs with
      | [] => (Error PollTimeout, p)
      | evs' =>
        let from := if linux then from_epoll_events else event_to_poll_event in
        (Val (map (fun x => (fst x, (from (fst (snd x)), snd (snd x)))) evs'),
         if linux && (lenZ evs' =? p_size p) then Poller (p_fds p) (p_size p * 2) else p)
      end
    end.
End Poller.
Arguments WaitNothing {A}.
Arguments WaitFails {A}.
Arguments WaitEvents {A}.
