(** File systems as the operating system presents them (POSIX pathname resolution). *)
From Verif Require Import Base.

(** A file system entry.
    - [EFile readable io content]: a regular file; [readable]: access(R_OK) allows it;
      [io]: opening and reading it succeeds;
    - [EDir search]: a directory; [search]: it may be searched;
    - [ELink target]: a symbolic link;
    - [EOther]: a device, socket or pipe.
    File sizes are those of the contents. *)
Inductive entry := EFile (readable io : bool) (content : bytes) | EDir (search : bool) | ELink (target : bytes) | EOther.

(** Places are sequences of names from the root directory.  Any function is a file
    system; names below something that is not a directory are never reached. *)
Definition location := list bytes.
(** What is where (used by file_reader.cpp and tls_context.cpp:12-18). *)
Definition filesystem := location -> option entry.

(** A process: file system, working directory, number of symbolic links followed before
    ELOOP (40 on Linux).  The file system does not change while a request is handled. *)
Record os := OS { os_fs : filesystem; os_cwd : location; os_links : nat }.

(** The separator of pathnames. *)
Definition SLASH := 47.
(** The character of the names dot and dot-dot. *)
Definition DOT := 46.
(** The name of a directory in itself. *)
Definition dot : bytes := [DOT].
(** The name of its parent. *)
Definition dotdot : bytes := [DOT; DOT].

(** The octets before the first NUL, which are what a system call sees. *)
Fixpoint c_str (s : bytes) : bytes :=
  match s with
  | [] => []
  | c :: r => if c =? 0 then [] else c :: c_str r
  end.

(** The parts of a string between slashes. *)
Fixpoint split (s : bytes) : list bytes :=
  match s with
  | [] => [[]]
  | c :: r =>
    if c =? SLASH then [] :: split r
    else match split r with [] => [[c]] | p :: ps => (c :: p) :: ps end
  end.
(** Whether a list is empty. *)
Definition null {A} (l : list A) : bool := match l with [] => true | _ => false end.
(** The components of a pathname; an empty last one stands for a trailing slash. *)
Definition elements (s : bytes) : list bytes :=
  let names := filter (fun c => negb (null c)) (split s) in
  if null (last (split s) []) && negb (null names) then names ++ [[]] else names.
(** Whether a pathname starts with a slash. *)
Definition absolute (s : bytes) : bool := match s with c :: _ => c =? SLASH | [] => false end.

(** The errors of pathname resolution. *)
Inductive errno := ENOENT | ENOTDIR | EACCES | ELOOP.
(** What pathname resolution finds. *)
Inductive found := At (l : location) | Err (e : errno).

(** path_resolution(7) from the directory [l]; [n] more links may be followed. *)
Fixpoint walk (fs : filesystem) (n : nat) : location -> list bytes -> found :=
  fix go (l : location) (cs : list bytes) : found :=
    match cs with
    | [] => At l
    | c :: cs' =>
      match fs l with
      | Some (EDir x) =>
        if null c then go l cs'
        else if negb x then Err EACCES
        else if bytes_eqb c dot then go l cs'
        else if bytes_eqb c dotdot then go (removelast l) cs'
        else
          match fs (l ++ [c]) with
          | None => Err ENOENT
          | Some (ELink t) =>
            match n with
            | O => Err ELOOP
            | S n' => walk fs n' (if absolute t then [] else l) (elements (c_str t) ++ cs')
            end
          | Some _ => go (l ++ [c]) cs'
          end
      | _ => Err ENOTDIR
      end
    end.
(** path_resolution(7) of a pathname in a process, as for the calls of file_reader.cpp:13-143. *)
Definition resolve (o : os) (s : bytes) : found :=
  match c_str s with
  | [] => Err ENOENT
  | s' => walk (os_fs o) (os_links o) (if absolute s' then [] else os_cwd o) (elements s')
  end.
