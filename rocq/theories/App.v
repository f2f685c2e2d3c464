(** Model of app/: server_stats.cpp, status_page.cpp, test_routes.cpp, args.cpp
    (to_server_config) and main.cpp (run_server), with lib/server_config.cpp and the
    constructors of Http2Server and TlsContext. *)
From Verif Require Import Base Http FileSys Files Router.

(** class ServerStats, server_stats.h:7-30; the random id and the start time are part of
    the page below.  total_duration_us is an unbounded integer here. *)
Record stats := Stats { total_requests : Z; status_codes : list (Z * Z); total_duration_us : Z }.
(** The initial values, server_stats.h:10-12. *)
Definition no_stats : stats := Stats 0 [] 0.
(** What the handlers of app/ work on.  Reading number [n] of steady_clock gives
    [w_clock n] nanoseconds; [w_readings] readings were made so far. *)
Record world := World { w_os : os; w_stats : stats; w_clock : nat -> Z; w_readings : nat; w_no_new_privs : bool }.
(** Assignment to the members of ServerStats, server_stats.cpp:20,28,29. *)
Definition set_stats (s : stats) (w : world) : world := World (w_os w) s (w_clock w) (w_readings w) (w_no_new_privs w).
(** steady_clock::now(), server_stats.cpp:21,25 and status_page.cpp:40. *)
Definition read_clock (w : world) : world * Z :=
  (World (w_os w) (w_stats w) (w_clock w) (S (w_readings w)) (w_no_new_privs w), w_clock w (w_readings w)).
(** status_codes[code]++ on a std::map<uint16_t, uint64_t>. *)
Fixpoint increment (code : Z) (m : list (Z * Z)) : list (Z * Z) :=
  match m with
  | [] => [(code, 1)]
  | (c, n) :: m' =>
    if code =? c then (c, u64 (n + 1)) :: m'
    else if code <? c then (code, 1) :: m
    else (c, n) :: increment code m'
  end.
(** ServerStats::middleware, server_stats.cpp:16-33. *)
Definition stats_middleware : middleware world := fun next w =>
  (w, Some (fun req w =>
    let s := w_stats w in
    let w := set_stats (Stats (u64 (total_requests s + 1)) (status_codes s) (total_duration_us s)) w in
    let (w, start) := read_clock w in
    let (w, res) := next req w in
    match res with
    | None => (w, None)
    | Some r =>
      let (w, end_) := read_clock w in
      let s := w_stats w in
      (set_stats (Stats (total_requests s) (increment (rs_status r) (status_codes s))
                        (total_duration_us s + Z.quot (end_ - start) 1000)) w, Some r)
    end)).

(** StatusPage::format_duration, status_page.cpp:13-31. *)
Definition format_duration (total_seconds : Z) : bytes :=
  let days := total_seconds / 86400 in
  let total_seconds := total_seconds mod 86400 in
  let hours := total_seconds / 3600 in
  let total_seconds := total_seconds mod 3600 in
  let minutes := total_seconds / 60 in
  let seconds := total_seconds mod 60 in
  (if days >? 0 then to_string days ++ str "d " else []) ++
  (if (hours >? 0) || (days >? 0) then to_string hours ++ str "h " else []) ++
  (if (minutes >? 0) || (hours >? 0) || (days >? 0) then to_string minutes ++ str "m " else []) ++
  to_string seconds ++ str "s".

(** struct Args, args.h, without port and logging. *)
Record args := Args {
  a_cleartext : bool; a_cert_path : bytes; a_key_path : bytes;
  a_static_map : list bytes; a_status_404_file_path : bytes; a_under_test : bool; a_status_page : bool }.

Section Main.
  (** The text of the status page, made from the statistics and the time. *)
  Variable page : stats -> Z -> bytes.

  (** A handler that returns, such as those of test_routes.cpp:7-36. *)
  Definition handler_of (r : world -> response) : handler world := fun _ w => (w, Some (r w)).
  (** TestRoutes::add_test_routes, test_routes.cpp:7-36. *)
  Definition test_routes : list (registration world) :=
    [AddRoute (str "/_tests/ok") (str "GET") (handler_of (fun _ => Response 200 [] []));
     AddRoute (str "/_tests/no_content") (str "GET") (handler_of (fun _ => Response 204 [] []));
     AddRoute (str "/_tests/no_new_privs") (str "GET")
       (handler_of (fun w => if w_no_new_privs w then Response 200 [] [] else Response 500 [] []));
     AddRoute (str "/_tests/medium_body") (str "GET")
       (handler_of (fun _ => Response 200 [] (repeat 65 (Z.to_nat (128 * 1024)))));
     AddRoute (str "/_tests/large_body") (str "GET")
       (handler_of (fun _ => Response 200 [] (repeat 65 (Z.to_nat (2 * 1024 * 1024)))))].
  (** StatusPage::add_status_page, status_page.cpp:33-247. *)
  Definition status_handler : handler world := fun _ w =>
    let (w, now) := read_clock w in
    (w, Some (Response 200 [Hdr (str "content-type") (str "text/html; charset=utf-8"); Hdr (str "cache-control") (str "no-store")]
                       (page (w_stats w) now))).
  (** The registrations of add_status_page, status_page.cpp:34,39. *)
  Definition status_page : list (registration world) :=
    [AddMiddleware stats_middleware; AddRoute (str "/_ion/status") (str "GET") status_handler].
  (** The middleware of run_server, main.cpp:44-57. *)
  Definition custom_404 (path : bytes) : middleware world := fun next w =>
    (w, Some (fun req w =>
      let (w, res) := next req w in
      match res with
      | None => (w, None)
      | Some r =>
        if rs_status r =? 404 then
          let f := file_response (w_os w) path false in
          (w, Some (Response 404 (rs_headers f) (rs_body f)))
        else (w, Some r)
      end)).
  (** The registrations of run_server, main.cpp:22-57. *)
  Definition main_registrations (a : args) : list (registration world) :=
    (if a_under_test a then test_routes else []) ++
    (if a_status_page a then status_page else []) ++
    match a_static_map a with [url; root] => [AddStatic (Static url root)] | _ => [] end ++
    match a_status_404_file_path a with [] => [] | f => [AddMiddleware (custom_404 f)] end.
  (** The application of the program: main.cpp:22-57 and http2_conn.cpp:457-466. *)
  Definition main_app (a : args) : request -> world -> world * app_answer :=
    dispatch world w_os (configure world (main_registrations a)).
End Main.

(** struct ServerConfiguration, server_config.h:9-16. *)
Record config := Config { c_cert_path : option bytes; c_key_path : option bytes; c_cleartext : bool }.
(** ServerConfiguration::validate, server_config.cpp:5-14. *)
Definition validate (c : config) : out unit :=
  if c_cleartext c then Ret tt
  else match c_cert_path c with
       | None => Throw
       | Some _ => match c_key_path c with None => Throw | Some _ => Ret tt end
       end.
(** Args::to_server_config, args.cpp:60-71; the last assignment is unconditional. *)
Definition to_server_config (a : args) : config :=
  let c := Config None None (a_cleartext a) in
  let c := match a_cert_path a with [] => c | p => Config (Some p) (c_key_path c) (c_cleartext c) end in
  let c := match a_key_path a with [] => c | p => Config (c_cert_path c) (Some p) (c_cleartext c) end in
  Config (c_cert_path c) (Some (a_key_path a)) (c_cleartext c).
(** TlsContext::TlsContext, tls_context.cpp:10-50.  [library]: all calls of the TLS
    library succeed. *)
Definition tls_context (o : os) (library : bool) (cert key : bytes) : out unit :=
  let! e := fs_exists o cert in
  if negb e then Throw
  else
    let! e := fs_exists o key in
    if negb e then Throw
    else if library then Ret tt else Throw.
(** Http2Server::Http2Server, http2_server.cpp:19-24; dereferencing an empty optional is
    undefined. *)
Definition new_server (o : os) (library : bool) (c : config) : out unit :=
  let! _ := validate c in
  if c_cleartext c then Ret tt
  else match c_cert_path c, c_key_path c with
       | Some cert, Some key => tls_context o library cert key
       | _, _ => Undef
       end.
