(** Model of the messages about static files with level debug or above: those of Messages.v
    and, between them, those with level debug (there are none with level trace). *)
From Verif Require Import Base Http FileSys Files Router App AccessLog Messages DebugMessages.

Section Files.
  (** As in Messages.v: what() of a filesystem_error, and how reading a file fails. *)
  Variable path_error : bytes -> bytes -> bytes.
  Variable fails : bytes -> unread.

  (** read_file, file_reader.cpp:13-36. *)
  Definition read_file_debug (o : os) (p : bytes) : list message :=
    read_file_messages fails o p ++
    match read_file o p with
    | Some buffer => [debug (str "Read file: " ++ p ++ str " (" ++ to_string (lenZ buffer) ++ str " bytes)")]
    | None => []
    end.
  (** get_response, static_file_handler.cpp:37-48. *)
  Definition get_response_debug (o : os) (p mime : bytes) : list message :=
    read_file_debug o p ++
    match read_file o p with
    | None => [err (str "failed to read file: " ++ p)]
    | Some content => [debug (str "serving static file: " ++ p ++ str " (" ++ to_string (lenZ content) ++ str " bytes, " ++ mime ++ str ")")]
    end.
  (** head_response, static_file_handler.cpp:50-62. *)
  Definition head_response_debug (o : os) (p mime : bytes) : list message :=
    head_response_messages path_error o p ++
    match get_file_size o p with
    | None => []
    | Some size => [debug (str "Returning metadata for static file: " ++ p ++ str " (" ++ to_string size ++ str " bytes, " ++ mime ++ str ")")]
    end.
  (** file_response, static_file_handler.cpp:64-72. *)
  Definition file_debug (o : os) (p : bytes) (head_request : bool) : list message :=
    if is_readable o p then
      if head_request then head_response_debug o p (get_mime_type p) else get_response_debug o p (get_mime_type p)
    else [debug (str "file not found or not readable: " ++ p)].
  (** handle, static_file_handler.cpp:74-84. *)
  Definition static_debug (o : os) (h : static) (p : bytes) (is_head : bool) : list message :=
    match get_relative_path h p with
    | Ret rel =>
      sanitize_messages path_error o (st_root h) rel ++
      match sanitize_path o (st_root h) rel with
      | None => [warn (str "invalid file path requested: " ++ p)]
      | Some safe => file_debug o safe is_head
      end
    | _ => []
    end.

  (** The shipped program, as target_messages and program_messages (router.cpp:11-36,
      main.cpp:22-57): nothing in router.cpp, test_routes.cpp and status_page.cpp adds a
      message with level debug. *)
  Variable page : stats -> Z -> bytes.
  (** The handler chosen in router.cpp:11-36. *)
  Definition target_debug (a : args) (rq : request) (w : world) : list message :=
    let r := configure world (main_registrations page a) in
    match find_route world (r_routes world r) (rq_path rq) (rq_method rq) with
    | Some _ => []
    | None =>
      if bytes_eqb (rq_method rq) (str "GET") || bytes_eqb (rq_method rq) (str "HEAD") then
        match find (fun h => static_matches h (rq_path rq)) (rev (r_static world r)) with
        | Some h => static_debug (w_os w) h (rq_path rq) (bytes_eqb (rq_method rq) (str "HEAD"))
        | None => []
        end
      else []
    end.
  (** The program's handlers with the middleware of main.cpp:44-57. *)
  Definition program_debug (a : args) (rq : request) (w : world) : list message :=
    target_debug a rq w ++
    match a_status_404_file_path a, snd (main_app page a rq w) with
    | _ :: _, Answers r => if rs_status r =? 404 then file_debug (w_os w) (a_status_404_file_path a) false else []
    | _, _ => []
    end.
End Files.
