(** Model of main (app/main.cpp:92-120) and of app/signal_handler.cpp. *)
From Verif Require Import Base Huffman Http Conn FileSys Router App AccessLog Poller Server.

(** What standard output and standard error can be, and for a pipe whether its reader is
    gone.  Sockets are not considered. *)
Inductive stream := Pipe (broken : bool) | OtherStream.
(** write of no octets to a stream: whether it fails with EPIPE.  On Linux such a write to a
    pipe succeeds whatever became of the reader (pipe_write); elsewhere it may report it. *)
Definition null_write_fails (linux : bool) (s : stream) : bool :=
  match s with
  | Pipe broken => if linux then false else broken
  | OtherStream => false
  end.
(** The signals handled; with SIGPIPE, the state of the two streams at that time. *)
Inductive signal := SigInt | SigTerm | SigPipe (out err : stream).
(** SignalHandler::signal_handler and sigpipe_handler, signal_handler.cpp:35-47: the calls of
    stop_server (29-33; the server is there while start runs). *)
Definition signal_stops (linux : bool) (s : signal) : list stop_reason :=
  match s with
  | SigInt | SigTerm => [StopSignal]
  | SigPipe out err =>
    (if null_write_fails linux out then [StopStdOut] else []) ++ (if null_write_fails linux err then [StopStdErr] else [])
  end.
(** An iteration of the server's loop during which the given signals arrive. *)
Definition with_signals (linux : bool) (x : iteration * list signal) : iteration :=
  Iteration (it_clock (fst x)) (it_wait (fst x)) (flat_map (signal_stops linux) (snd x)).

(** How the program ends.  [Running]: not within the given iterations. *)
Inductive ending := Exits (code : Z) | Uncaught | Undefined | Running.
(** main, main.cpp:92-120, after the options were parsed.  log_level_enum is called outside
    the try block.  Telemetry, the no-new-privileges flag and what goes to the console are
    left out; SignalHandler::setup does not throw the first time. *)
Definition main (linux : bool) (listener : Z) (page : stats -> Z -> bytes) (cs : bool) (T : tree) (library made ok : bool)
    (log_level : bytes) (a : args) (k0 : kernel) (w0 : world) (its : list (iteration * list signal)) : ending :=
  match log_level_enum log_level with
  | Ret _ =>
    match
      (let! _ := new_server (w_os w0) library (to_server_config a) in
       start linux listener world (main_app page a) cs T made ok None k0 w0 (map (with_signals linux) its))
    with
    | Ret (true, _) => Exits 0
    | Ret (false, _) => Running
    | Throw => Exits 1
    | Undef | Fuel => Undefined
    end
  | Throw => Uncaught
  | Undef | Fuel => Undefined
  end.
