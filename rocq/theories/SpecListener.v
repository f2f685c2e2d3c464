(** What the system makes of the calls, by itself: the sockets after a sequence of calls.  The
    numbers are those of Linux: family 2, level 1 with option 2 (reusable addresses), level 6 with
    option 1 (no delay), flag 2048 (non-blocking). *)
From Verif Require Import Base Poller Listener.

(** A socket of the process: the arguments of socket(2) (None: from accept); the flags last reported and last set; options; the address it
    was bound to (four octets and the port) and whether addresses were reusable then. *)
Record sock := Sock {
  so_kind : option (Z * Z * Z); so_reported : option Z; so_flags : option Z; so_reuse : bool; so_nodelay : bool;
  so_bound : option (list Z * Z * bool); so_listening : bool; so_backlog : Z }.
Definition new_sock (kind : option (Z * Z * Z)) : sock := Sock kind None None false false None false 0.
(** An address as the system reads it: family in the machine's order, port in the network's. *)
Definition read_address (little : bool) (a : list Z) : option (list Z * Z) :=
  match a with
  | f1 :: f2 :: p1 :: p2 :: i1 :: i2 :: i3 :: i4 :: rest =>
    if ((if little then f1 + 256 * f2 else 256 * f1 + f2) =? 2) && (length rest =? 8)%nat
    then Some ([i1; i2; i3; i4], 256 * p1 + p2) else None
  | _ => None
  end.
(** The sockets, by descriptor, after one more call. *)
Definition after1 (little : bool) (m : list (Z * sock)) (x : syscall * Z) : list (Z * sock) :=
  let (c, r) := x in
  let on fd f := match mget fd m with Some s => if r <? 0 then m else mput fd (f s) m | None => m end in
  match c with
  | SysSocket d t p => if r <? 0 then m else mput r (new_sock (Some (d, t, p))) m
  | SysAccept _ => if r <? 0 then m else mput r (new_sock None) m
  | SysGetFlags fd => on fd (fun s => Sock (so_kind s) (Some r) (so_flags s) (so_reuse s) (so_nodelay s) (so_bound s) (so_listening s) (so_backlog s))
  | SysSetFlags fd f => on fd (fun s => Sock (so_kind s) (so_reported s) (Some f) (so_reuse s) (so_nodelay s) (so_bound s) (so_listening s) (so_backlog s))
  | SysSetOption fd l n v => on fd (fun s =>
      Sock (so_kind s) (so_reported s) (so_flags s)
        (if (l =? 1) && (n =? 2) then negb (v =? 0) else so_reuse s)
        (if (l =? 6) && (n =? 1) then negb (v =? 0) else so_nodelay s)
        (so_bound s) (so_listening s) (so_backlog s))
  | SysBind fd a => on fd (fun s =>
      Sock (so_kind s) (so_reported s) (so_flags s) (so_reuse s) (so_nodelay s)
        (match read_address little a with Some (ip, port) => Some (ip, port, so_reuse s) | None => None end) (so_listening s) (so_backlog s))
  | SysListen fd b => on fd (fun s => Sock (so_kind s) (so_reported s) (so_flags s) (so_reuse s) (so_nodelay s) (so_bound s) true b)
  | SysClose fd => mdel fd m
  end.
Definition after (little : bool) (tr : calls_made) : list (Z * sock) := fold_left (after1 little) tr [].
(** The descriptor a call is given is open at that moment. *)
Definition usable (m : list (Z * sock)) (c : syscall) : Prop :=
  match c with
  | SysSocket _ _ _ => True
  | SysGetFlags fd | SysSetFlags fd _ | SysSetOption fd _ _ _ | SysBind fd _ | SysListen fd _ | SysAccept fd | SysClose fd =>
    mget fd m <> None
  end.
Definition proper_calls (little : bool) (tr : calls_made) : Prop :=
  forall tr1 c r tr2, tr = tr1 ++ (c, r) :: tr2 -> usable (after little tr1) c.
(** The system's part: -1 or a non-negative number, for setsockopt 0; new descriptors are new. *)
Definition reliable (little : bool) (system : calls_made -> syscall -> Z * Z) : Prop :=
  forall tr c, let r := fst (system tr c) in
    -1 <= r /\
    match c with
    | SysSocket _ _ _ | SysAccept _ => mget r (after little tr) = None
    | SysSetOption _ _ _ _ => r <= 0
    | _ => True
    end.
(** A socket on which read and write do not wait, with the flags it had before. *)
Definition nonblocking (s : sock) : Prop := exists f, so_reported s = Some f /\ so_flags s = Some (Z.lor f 2048).
(** A call failed. *)
Definition failed (tr : calls_made) : Prop := exists c r, In (c, r) tr /\ r < 0.
(** The calls that get or set a descriptor's flags. *)
Definition about_flags (x : syscall * Z) : bool := match fst x with SysGetFlags _ | SysSetFlags _ _ => true | _ => false end.
