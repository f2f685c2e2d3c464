(** Model of main (app/main.cpp:92-120) and run_server (19-60) with what Main.v leaves out:
    the messages to the console, when signals are caught (app/signal_handler.cpp), and the
    pointer to the server that the signal handlers use. *)
From Verif Require Import Base Huffman Http Conn FileSys Router App AccessLog Poller Server Main.

(** Which signal. *)
Inductive kind := KInt | KTerm | KPipe.
(** Which handler it has, signal_handler.cpp:17-19. *)
Definition kind_of (s : signal) : kind := match s with SigInt => KInt | SigTerm => KTerm | SigPipe _ _ => KPipe end.
(** The signals for which a handler is installed (else the signal ends the process); whether
    SignalHandler::server_ points to the server, and whether there is a server there;
    stop_reason_ of that server, if stop was called; spdlog's level. *)
Record proc := Proc { p_int : bool; p_term : bool; p_pipe : bool; p_points : bool; p_exists : bool; p_stop : option stop_reason; p_level : level }.
(** Whether the handler is installed, signal_handler.cpp:15-27. *)
Definition caught (k : kind) (p : proc) : bool := match k with KInt => p_int p | KTerm => p_term p | KPipe => p_pipe p end.
(** How the process ends.  [Stale]: a server that is no more was used.  [Runs]: not within
    the given iterations.  [Aborts]: by an exception nobody catches. *)
Inductive fate := Ends (code : Z) | Killed (k : kind) | Stale | Aborts | NotDefined | Runs.
(** Whether the process goes on. *)
Inductive progress := On (p : proc) | Over (f : fate).
(** The next thing, if it does. *)
Definition go_on (x : progress) (f : proc -> progress) : progress := match x with On p => f p | Over y => Over y end.

(** stop_server, signal_handler.cpp:29-33. *)
Definition stop_server (r : stop_reason) (p : proc) : progress :=
  if p_points p then
    if p_exists p then On (Proc (p_int p) (p_term p) (p_pipe p) (p_points p) (p_exists p) (Some r) (p_level p)) else Over Stale
  else On p.
(** A signal arrives: signal_handler and sigpipe_handler, signal_handler.cpp:35-47, or the default action.
    std::signal leaves the handler installed (BSD semantics, as glibc and macOS have). *)
Definition arrive (linux : bool) (p : proc) (s : signal) : progress :=
  if caught (kind_of s) p then fold_left (fun x r => go_on x (stop_server r)) (signal_stops linux s) (On p)
  else Over (Killed (kind_of s)).

(** What main does, apart from serving. *)
Inductive step :=
| Say (l : level)
| SetLevel (l : level)
| Make
| Destroy
| Point
| Unpoint
| Catch (k : kind)
| Release (k : kind).
(** std::signal, signal_handler.cpp:17-19,23-25. *)
Definition set_caught (b : bool) (k : kind) (p : proc) : proc :=
  match k with
  | KInt => Proc b (p_term p) (p_pipe p) (p_points p) (p_exists p) (p_stop p) (p_level p)
  | KTerm => Proc (p_int p) b (p_pipe p) (p_points p) (p_exists p) (p_stop p) (p_level p)
  | KPipe => Proc (p_int p) (p_term p) b (p_points p) (p_exists p) (p_stop p) (p_level p)
  end.
(** Just before a step: the signals that arrive, and what standard output and error are. *)
Record moment := Moment { mo_signals : list signal; mo_out : stream; mo_err : stream }.
(** A message that the level lets through is written to standard output, and the buffer
    flushed (spdlog's console sink).  Writing to a pipe without readers causes SIGPIPE;
    the failure itself is ignored. *)
Definition do_step (linux : bool) (m : moment) (s : step) (p : proc) : progress :=
  match s with
  | Say l =>
    if severity (p_level p) <=? severity l then
      match mo_out m with
      | Pipe true => arrive linux p (SigPipe (mo_out m) (mo_err m))
      | _ => On p
      end
    else On p
  | SetLevel l => On (Proc (p_int p) (p_term p) (p_pipe p) (p_points p) (p_exists p) (p_stop p) l)
  | Make => On (Proc (p_int p) (p_term p) (p_pipe p) (p_points p) true None (p_level p))
  | Destroy => On (Proc (p_int p) (p_term p) (p_pipe p) (p_points p) false (p_stop p) (p_level p))
  | Point => On (Proc (p_int p) (p_term p) (p_pipe p) true (p_exists p) (p_stop p) (p_level p))
  | Unpoint => On (Proc (p_int p) (p_term p) (p_pipe p) false (p_exists p) (p_stop p) (p_level p))
  | Catch k => On (set_caught true k p)
  | Release k => On (set_caught false k p)
  end.
(** Signals that arrive one after the other. *)
Definition signals (linux : bool) (l : list signal) (p : proc) : progress := fold_left (fun x s => go_on x (fun p => arrive linux p s)) l (On p).
(** Steps, with what goes on before each (nothing, if not told). *)
Definition calm : moment := Moment [] OtherStream OtherStream.
(** Statements of main and run_server, main.cpp:19-120, in sequence. *)
Fixpoint steps (linux : bool) (env : list moment) (l : list step) (p : proc) : progress :=
  match l with
  | [] => On p
  | s :: l' =>
    let m := hd calm env in
    go_on (go_on (signals linux (mo_signals m) p) (do_step linux m s)) (steps linux (tl env) l')
  end.

(** SignalHandler::setup and the constructor, signal_handler.cpp:7-20; the destructor, 22-27. *)
Definition setup : list step := [Point; Catch KInt; Catch KTerm; Catch KPipe].
(** The destructor, signal_handler.cpp:22-27. *)
Definition unset : list step := [Release KInt; Release KTerm; Release KPipe; Unpoint].
(** The beginning of main, main.cpp:101-112, up to the construction of the server.  [otel]:
    configure_telemetry (83-90) makes no telemetry object; [privs]: prctl succeeds
    (proc_ctrl.cpp:11-22); [opened]: the access log could be opened (main.cpp:62-75). *)
Definition opening (linux otel privs opened : bool) (log_path : bytes) (l : level) : list step :=
  (if otel then [Say LInfo] else []) ++ [SetLevel l; Say LInfo] ++
  (if linux then [Say (if privs then LDebug else LWarn)] else []) ++
  match log_path with [] => [] | _ => [Say (if opened then LInfo else LErr)] end.
(** run_server, main.cpp:22-41, after the setup. *)
Definition routes (a : args) : list step :=
  (if a_under_test a then [Say LInfo] else []) ++ (if a_status_page a then [Say LInfo] else []) ++
  match a_static_map a with [_; _] => [Say LInfo] | _ => [] end.
(** The end of run_server: what was made last is destroyed first.  [closing]: the messages
    while the server with its connections is destroyed (tls_transport.cpp:74, socket_fd.cpp:61). *)
Definition leave (closing : list level) : list step := unset ++ Destroy :: map Say closing.

(** main, main.cpp:92-120.  [early], [ready], [late]: the moments before the steps up to the setup of
    the signal handlers, then up to start, and after start; the signals during start come with
    the iterations [its], as in Main.v, those just before with [brink]. *)
Definition console_main (linux : bool) (listener : Z) (page : stats -> Z -> bytes) (cs : bool) (T : tree) (library made ok : bool)
    (otel privs opened : bool) (log_path log_level : bytes) (a : args) (k0 : kernel) (w0 : world)
    (closing : list level) (early ready late : list moment) (brink : list signal) (its : list (iteration * list signal)) : fate :=
  let fresh := Proc false false false false false None LInfo in
  match log_level_enum log_level with
  | Ret l =>
    match steps linux early (opening linux otel privs opened log_path l) fresh with
    | Over f => f
    | On p =>
      let rest := skipn (length (opening linux otel privs opened log_path l)) early in
      match new_server (w_os w0) library (to_server_config a) with
      | Throw => match steps linux rest [Say LCritical] p with On _ => Ends 1 | Over f => f end
      | Undef | Fuel => NotDefined
      | Ret _ =>
        match go_on (go_on (steps linux rest (Make :: setup) p) (steps linux ready (routes a))) (signals linux brink) with
        | Over f => f
        | On p =>
          match start linux listener world (main_app page a) cs T made ok (p_stop p) k0 w0 (map (with_signals linux) its) with
          | Ret (true, _) => match steps linux late (leave closing ++ [Say LInfo]) p with On _ => Ends 0 | Over f => f end
          | Ret (false, _) => Runs
          | Throw => match steps linux late (leave closing ++ [Say LCritical]) p with On _ => Ends 1 | Over f => f end
          | Undef | Fuel => NotDefined
          end
        end
      end
    end
  | Throw => match (if otel then steps linux early [Say LInfo] fresh else On fresh) with On _ => Aborts | Over f => f end
  | Undef | Fuel => NotDefined
  end.
