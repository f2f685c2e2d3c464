(** Model of lib/file_reader.cpp and lib/static_file_handler.cpp for files that other programs
    change while a request is handled: every call to the operating system sees its own state.
    Files.v is the case in which all these states are the same.  Each call (stat, access,
    realpath, open) is one step, although the kernel may let changes happen while it follows a
    path.  Log output is left out. *)
From Verif Require Import Base Http FileSys Files.

(** What happens around the process.
    - [h_os n]: what the n-th call sees;
    - [h_later b]: what a file that held [b] when it was opened holds when it is read;
    - [h_odd l]: what opening a directory, device or pipe does: it fails (None), or the end is at
      the given offset and reading gives the given octets, if any (a pipe may also keep the
      process waiting, which is not modelled);
    - [h_memory]: the largest vector that can be allocated. *)
Record history := History {
  h_os : nat -> os; h_later : bytes -> bytes; h_odd : location -> option (Z * option bytes); h_memory : Z }.

(** The loop of weakly_canonical, one call for each element; [k]: calls made so far. *)
Fixpoint leading_in (H : history) (k : nat) (result p : path) : out (path * path * nat) :=
  match p with
  | [] => Ret (result, [], k)
  | c :: p' =>
    let! e := fs_exists (h_os H k) (path_string (result ++ [c])) in
    if e then leading_in H (S k) (result ++ [c]) p' else Ret (result, p, S k)
  end.
(** weakly_canonical(p): status, then either canonical or the loop and canonical. *)
Definition weakly_canonical_in (H : history) (k : nat) (p : path) : out (path * nat) :=
  let! e := fs_exists (h_os H k) (path_string p) in
  if e then let! r := fs_canonical (h_os H (S k)) p in Ret (r, S (S k))
  else
    let! (result, rest, j) := leading_in H (S k) [] p in
    let! result' := fs_canonical (h_os H j) result in
    Ret (lexically_normal (result' ++ rest), S j).

(** sanitize_path, file_reader.cpp:99-143: the working directory (call 0), exists (1) and
    is_directory (2) at 106, weakly_canonical at 111 and 118.  Throw is the filesystem_error
    caught at 139. *)
Definition sanitize_in (H : history) (base_dir requested : bytes) : out (option (bytes * nat)) :=
  let! base_abs := fs_absolute (h_os H 0) base_dir in
  let! e := fs_exists (h_os H 1) (path_string base_abs) in
  if e then
    let! d := fs_status (h_os H 2) (path_string base_abs) in
    match d with
    | Some (EDir _) =>
      let! (base, k) := weakly_canonical_in H 3 base_abs in
      let! (full, k') := weakly_canonical_in H k (fs_append base requested) in
      Ret (if within base full then Some (path_string full, k') else None)
    | _ => Ret None
    end
  else Ret None.
(** sanitize_path, file_reader.cpp:99-143, with its catch. *)
Definition sanitize_path_in (H : history) (base_dir requested : bytes) : option (bytes * nat) :=
  match sanitize_in H base_dir requested with Ret r => r | _ => None end.

(** What is found at a path. *)
Definition entry_at (o : os) (s : bytes) : option entry :=
  match resolve o s with At l => os_fs o l | Err _ => None end.
(** is_readable, file_reader.cpp:84-97: stat, then access.  What is not a regular file any more when access is
    called is taken to be accessible. *)
Definition is_readable_in (H : history) (k : nat) (s : bytes) : bool :=
  match entry_at (h_os H k) s with
  | Some (EFile _ _ _) =>
    match entry_at (h_os H (S k)) s with Some (EFile r _ _) => r | Some _ => true | None => false end
  | _ => false
  end.
(** read_file, file_reader.cpp:13-36: the stream is opened at its end, then the octets up to that offset are
    read.  A vector that cannot be allocated is an exception nobody catches here. *)
Definition read_file_in (H : history) (k : nat) (s : bytes) : out (option bytes) :=
  match resolve (h_os H k) s with
  | At l =>
    match os_fs (h_os H k) l with
    | Some (EFile true true b) =>
      let now := h_later H b in
      Ret (if lenZ now <? lenZ b then None else Some (firstn (length b) now))
    | Some (EDir _) | Some EOther =>
      match h_odd H l with
      | None => Ret None
      | Some (size, content) =>
        if size <? 0 then Ret None
        else if h_memory H <? size then Throw
        else match content with
             | None => Ret (if size =? 0 then Some [] else None)
             | Some b => Ret (if lenZ b <? size then None else Some (firstn (Z.to_nat size) b))
             end
      end
    | _ => Ret None
    end
  | Err _ => Ret None
  end.
(** get_file_size, file_reader.cpp:38-49: exists, is_regular_file, file_size. *)
Definition get_file_size_in (H : history) (k : nat) (s : bytes) : option Z :=
  match entry_at (h_os H k) s, entry_at (h_os H (S k)) s, entry_at (h_os H (S (S k))) s with
  | Some _, Some (EFile _ _ _), Some (EFile _ _ b) => Some (lenZ b)
  | _, _, _ => None
  end.

(** get_response and head_response, static_file_handler.cpp:37-62. *)
Definition get_response_in (H : history) (k : nat) (p mime : bytes) : out response :=
  let! c := read_file_in H k p in
  Ret (match c with
       | None => Response 500 [] []
       | Some content => Response 200 [Hdr (str "content-type") mime] content
       end).
(** head_response, static_file_handler.cpp:50-62. *)
Definition head_response_in (H : history) (k : nat) (p mime : bytes) : response :=
  match get_file_size_in H k p with
  | None => Response 500 [] []
  | Some size => Response 200 [Hdr (str "content-length") (to_string size); Hdr (str "content-type") mime] []
  end.
(** file_response, static_file_handler.cpp:64-72. *)
Definition file_response_in (H : history) (k : nat) (p : bytes) (head_request : bool) : out response :=
  if is_readable_in H k p then
    if head_request then Ret (head_response_in H (S (S k)) p (get_mime_type p))
    else get_response_in H (S (S k)) p (get_mime_type p)
  else Ret (Response 404 [] []).
(** handle, static_file_handler.cpp:74-84. *)
Definition static_handle_in (H : history) (h : static) (p : bytes) (is_head : bool) : out response :=
  let! rel := get_relative_path h p in
  match sanitize_path_in H (st_root h) rel with
  | None => Ret (Response 403 [] [])
  | Some (safe, k) => file_response_in H k safe is_head
  end.
