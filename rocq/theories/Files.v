(** Model of lib/file_reader.cpp and lib/static_file_handler.cpp, with the functions of
    std::filesystem they use (the algorithms of libstdc++; those of libc++ give the same
    results).  Log output is left out. *)
From Verif Require Import Base Http FileSys.

(** An absolute std::filesystem::path is the list of its elements after the root
    directory; an empty last element stands for a trailing slash. *)
Definition path := list bytes.
(** path::string() *)
Definition path_string (p : path) : bytes :=
  match p with [] => [SLASH] | _ => flat_map (fun c => SLASH :: c) p end.
(** status(p) as a throwing call: None means not found, other errors throw. *)
Definition fs_status (o : os) (s : bytes) : out (option entry) :=
  match resolve o s with
  | At l => Ret (os_fs o l)
  | Err ENOENT | Err ENOTDIR => Ret None
  | Err _ => Throw
  end.
(** std::filesystem::exists, file_reader.cpp:106, and tls_context.cpp:12,16. *)
Definition fs_exists (o : os) (s : bytes) : out bool :=
  let! e := fs_status o s in Ret (match e with Some _ => true | None => false end).
(** canonical(p): realpath(3). *)
Definition fs_canonical (o : os) (p : path) : out path :=
  match resolve o (path_string p) with At l => Ret l | Err _ => Throw end.
(** absolute(p): empty paths are refused. *)
Definition fs_absolute (o : os) (s : bytes) : out path :=
  match s with
  | [] => Throw
  | _ => Ret (if absolute s then elements s else os_cwd o ++ elements s)
  end.
(** p / q for a string q *)
Definition fs_append (p : path) (q : bytes) : path :=
  if absolute q then elements q
  else match q with
       | [] => match p with [] => [] | _ => p ++ [[]] end
       | _ => p ++ elements q
       end.
(** lexically_normal() of an absolute path: [st] is the result so far, last element
    first; [slash]: it ends with a slash. *)
Fixpoint normal (st : list bytes) (slash : bool) (p : path) : path :=
  match p with
  | [] => rev st ++ (if slash && negb (null st) then [[]] else [])
  | c :: p' =>
    if bytes_eqb c dotdot then normal (tl st) true p'
    else if bytes_eqb c dot || null c then normal st true p'
    else normal (c :: st) false p'
  end.
(** std::filesystem::path::lexically_normal, as part of weakly_canonical, file_reader.cpp:111,118. *)
Definition lexically_normal (p : path) : path := normal [] false p.
(** The loop of weakly_canonical that finds the leading elements that exist. *)
Fixpoint leading (o : os) (result : path) (p : path) : out (path * path) :=
  match p with
  | [] => Ret (result, [])
  | c :: p' =>
    let! e := fs_exists o (path_string (result ++ [c])) in
    if e then leading o (result ++ [c]) p' else Ret (result, p)
  end.
(** weakly_canonical(p) *)
Definition weakly_canonical (o : os) (p : path) : out path :=
  let! e := fs_exists o (path_string p) in
  if e then fs_canonical o p
  else
    let! (result, rest) := leading o [] p in
    let! result' := fs_canonical o result in
    Ret (lexically_normal (result' ++ rest)).

(** The component comparison, file_reader.cpp:122-137. *)
Fixpoint within (base full : path) : bool :=
  match base, full with
  | [], _ => true
  | b :: base', f :: full' => bytes_eqb b f && within base' full'
  | _ :: _, [] => false
  end.
(** sanitize_path, file_reader.cpp:99-143; Throw is the filesystem_error caught at 140. *)
Definition sanitize (o : os) (base_dir requested : bytes) : out (option bytes) :=
  let! base_abs := fs_absolute o base_dir in
  let! e := fs_status o (path_string base_abs) in
  match e with
  | Some (EDir _) =>
    let! base := weakly_canonical o base_abs in
    let! full := weakly_canonical o (fs_append base requested) in
    Ret (if within base full then Some (path_string full) else None)
  | _ => Ret None
  end.
(** sanitize_path, file_reader.cpp:99-143, with its catch. *)
Definition sanitize_path (o : os) (base_dir requested : bytes) : option bytes :=
  match sanitize o base_dir requested with Ret r => r | _ => None end.

(** is_readable, file_reader.cpp:84-97. *)
Definition is_readable (o : os) (s : bytes) : bool :=
  match resolve o s with
  | At l => match os_fs o l with Some (EFile r _ _) => r | _ => false end
  | Err _ => false
  end.
(** read_file, file_reader.cpp:13-36. *)
Definition read_file (o : os) (s : bytes) : option bytes :=
  match resolve o s with
  | At l => match os_fs o l with Some (EFile true true b) => Some b | _ => None end
  | Err _ => None
  end.
(** get_file_size, file_reader.cpp:38-49. *)
Definition get_file_size (o : os) (s : bytes) : option Z :=
  match resolve o s with
  | At l => match os_fs o l with Some (EFile _ _ b) => Some (lenZ b) | _ => None end
  | Err _ => None
  end.

(** path.substr(path.find_last_of('.')), file_reader.cpp:74-79. *)
Fixpoint from_last_dot (s : bytes) : option bytes :=
  match s with
  | [] => None
  | c :: r => match from_last_dot r with
              | Some e => Some e
              | None => if c =? DOT then Some s else None
              end
  end.
(** get_mime_type, file_reader.cpp:51-82. *)
Definition mime_types : list (bytes * bytes) :=
  [(str ".html", str "text/html; charset=utf-8"); (str ".htm", str "text/html; charset=utf-8");
   (str ".css", str "text/css; charset=utf-8"); (str ".js", str "application/javascript; charset=utf-8");
   (str ".json", str "application/json"); (str ".xml", str "application/xml"); (str ".png", str "image/png");
   (str ".jpg", str "image/jpeg"); (str ".jpeg", str "image/jpeg"); (str ".gif", str "image/gif");
   (str ".svg", str "image/svg+xml"); (str ".ico", str "image/x-icon"); (str ".txt", str "text/plain; charset=utf-8");
   (str ".pdf", str "application/pdf"); (str ".zip", str "application/zip"); (str ".woff", str "font/woff");
   (str ".woff2", str "font/woff2"); (str ".ttf", str "font/ttf"); (str ".webp", str "image/webp")].
(** The type for other files, file_reader.cpp:76,81. *)
Definition octet_stream : bytes := str "application/octet-stream".
(** get_mime_type, file_reader.cpp:51-82. *)
Definition get_mime_type (s : bytes) : bytes :=
  match from_last_dot s with
  | None => octet_stream
  | Some ext => match find (fun x => bytes_eqb (fst x) ext) mime_types with Some x => snd x | None => octet_stream end
  end.

(** Class StaticFileHandler, static_file_handler.h:8-22. *)
Record static := Static { st_prefix : bytes; st_root : bytes }.
(** std::string::starts_with *)
Fixpoint starts_with (s p : bytes) : bool :=
  match p, s with
  | [], _ => true
  | a :: p', b :: s' => (a =? b) && starts_with s' p'
  | _ :: _, [] => false
  end.
(** matches, static_file_handler.cpp:14-16. *)
Definition static_matches (h : static) (p : bytes) : bool := starts_with p (st_prefix h).
(** rel_path.substr(0, rel_path.find('?')), static_file_handler.cpp:30-32. *)
Fixpoint before_query (s : bytes) : bytes :=
  match s with
  | [] => []
  | c :: r => if c =? 63 then [] else c :: before_query r
  end.
(** get_relative_path, static_file_handler.cpp:18-35; substr throws when the path is shorter than the prefix. *)
Definition get_relative_path (h : static) (url_path : bytes) : out bytes :=
  if lenZ url_path <? lenZ (st_prefix h) then Throw
  else
    let r := skipn (length (st_prefix h)) url_path in
    let r := if null r || bytes_eqb r [SLASH] then str "/index.html" else r in
    let r := if starts_with r [SLASH] then tl r else r in
    Ret (before_query r).
(** get_response, static_file_handler.cpp:37-48. *)
Definition get_response (o : os) (p mime : bytes) : response :=
  match read_file o p with
  | None => Response 500 [] []
  | Some content => Response 200 [Hdr (str "content-type") mime] content
  end.
(** head_response, static_file_handler.cpp:50-62. *)
Definition head_response (o : os) (p mime : bytes) : response :=
  match get_file_size o p with
  | None => Response 500 [] []
  | Some size => Response 200 [Hdr (str "content-length") (to_string size); Hdr (str "content-type") mime] []
  end.
(** file_response, static_file_handler.cpp:64-72. *)
Definition file_response (o : os) (p : bytes) (head_request : bool) : response :=
  if is_readable o p then
    if head_request then head_response o p (get_mime_type p) else get_response o p (get_mime_type p)
  else Response 404 [] [].
(** handle, static_file_handler.cpp:74-84. *)
Definition static_handle (o : os) (h : static) (p : bytes) (is_head : bool) : out response :=
  let! rel := get_relative_path h p in
  match sanitize_path o (st_root h) rel with
  | None => Ret (Response 403 [] [])
  | Some safe => Ret (file_response o safe is_head)
  end.
