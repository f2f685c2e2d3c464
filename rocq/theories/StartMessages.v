(** Model of what the program prints on the console from its beginning to its end: the
    messages of app/main.cpp and app/proc_ctrl.cpp with their texts, and why the server
    cannot be made (server_config.cpp, tls_context.cpp). *)
From Verif Require Import Base AccessLog Messages FileSys Files Router App ProcCtrl.

(** ** Why there is no server *)
(** How far the TLS library's calls in TlsContext's constructor come, tls_context.cpp:20-38. *)
Inductive library := NoContext | BadCertificate | BadKey | NoMatch | Works.
(** All of them succeed, tls_context.cpp:20-38. *)
Definition works (l : library) : bool := match l with Works => true | _ => false end.
Section Reason.
  (** what() of the exception of std::filesystem::exists. *)
  Variable what_exists : bytes -> bytes.

  (** TlsContext::TlsContext, tls_context.cpp:10-50. *)
  Definition context_reason (o : os) (l : library) (cert key : bytes) : option bytes :=
    match fs_exists o cert with
    | Ret true =>
      match fs_exists o key with
      | Ret true =>
        match l with
        | NoContext => Some (str "failed to create SSL context")
        | BadCertificate => Some (str "failed to load certificate file")
        | BadKey => Some (str "failed to load private key file")
        | NoMatch => Some (str "private key does not match certificate")
        | Works => None
        end
      | Ret false => Some (str "private key file not found")
      | _ => Some (what_exists key)
      end
    | Ret false => Some (str "certificate file not found")
    | _ => Some (what_exists cert)
    end.
  (** Http2Server::Http2Server, http2_server.cpp:19-24, with ServerConfiguration::validate,
      server_config.cpp:5-14. *)
  Definition server_reason (o : os) (l : library) (c : config) : option bytes :=
    if c_cleartext c then None
    else match c_cert_path c, c_key_path c with
         | None, _ => Some (str "TLS certificate path not set.")
         | _, None => Some (str "TLS private key path not set.")
         | Some cert, Some key => context_reason o l cert key
         end.
End Reason.

(** ** The messages *)
(** setup_access_logs, main.cpp:62-75; spdlog opens the file or throws. *)
Inductive log_file := LogOpened | LogFailed (what : bytes).
(** setup_access_logs, main.cpp:62-75. *)
Definition access_log_messages (path : bytes) (f : log_file) : list message :=
  match path with
  | [] => []
  | _ => match f with
         | LogOpened => [info (str "writing access logs to " ++ path)]
         | LogFailed what => [Messages.err (str "failed to setup access logs: " ++ what)]
         end
  end.
(** run_server, main.cpp:24-41. *)
Definition route_messages (a : args) : list message :=
  (if a_under_test a then [info (str "running under test mode")] else []) ++
  (if a_status_page a then [info (str "status page enabled: /_ion/status")] else []) ++
  match a_static_map a with
  | [url_prefix; filesystem_root] => [info (str "serving static files at '" ++ url_prefix ++ str "' -> '" ++ filesystem_root ++ str "'")]
  | _ => []
  end.
(** How start (line 59) ends, if it does. *)
Inductive finish := StillRuns | Returns | Throws (what : bytes).
(** The message of main.cpp:117. *)
Definition fatal (what : bytes) : message := Msg LCritical (str "fatal error: " ++ what).
(** main, main.cpp:109-119, with the messages [during] while the server runs. *)
Definition try_messages (what_exists : bytes -> bytes) (version : bytes) (linux : bool) (set : prctl_result) (inherited : bool)
    (log_path : bytes) (f : log_file) (o : os) (l : library) (a : args) (during : list message) (e : finish) : list message :=
  [info (str "ion " ++ version ++ str " started " ++ [226; 154; 161; 239; 184; 143])] ++
  snd (enable_no_new_privs_on_linux linux set inherited) ++
  access_log_messages log_path f ++
  match server_reason what_exists o l (to_server_config a) with
  | Some what => [fatal what]
  | None =>
    route_messages a ++ during ++
    match e with StillRuns => [] | Returns => [info (str "exiting")] | Throws what => [fatal what] end
  end.
(** What spdlog lets through when the level is set to [v]. *)
Definition let_through (v : level) (ms : list message) : list message := filter (fun m => severity v <=? severity (m_level m)) ms.
(** main, main.cpp:101-119: configure_telemetry (83-90) speaks before the level is set (107); until
    then it is info. *)
Definition main_messages (what_exists : bytes -> bytes) (telemetry : bool) (v : level) (version : bytes) (linux : bool) (set : prctl_result) (inherited : bool)
    (log_path : bytes) (f : log_file) (o : os) (l : library) (a : args) (during : list message) (e : finish) : list message :=
  let_through LInfo (if telemetry then [] else [info (str "OpenTelemetry disabled.")]) ++
  let_through v (try_messages what_exists version linux set inherited log_path f o l a during e).
