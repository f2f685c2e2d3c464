(** What the shipped program (app/) should answer, as a function of its command line, the
    files and the request. *)
From Verif Require Import Base Http FileSys SpecFiles App SpecConn.

(** Content types the program can send. *)
Definition some_type (t : bytes) : Prop := t = str "application/octet-stream" \/ In t (map snd known_types).

(** ** Static files *)
(** The answer for a regular file that may be read, of which reading succeeds if [io]. *)
Definition file_content (head io : bool) (t b : bytes) (r : response) : Prop :=
  if head then exists n, decimal n (lenZ b) /\ r = Response 200 [Hdr (str "content-length") n; Hdr (str "content-type") t] []
  else if io then r = Response 200 [Hdr (str "content-type") t] b
  else r = Response 500 [] [].

(** The directory [root] is published under the URL path [url]; the answer to a request for
    [p].  Paths that name nothing are read as text from the first missing component on (see
    C57 for what that means). *)
Inductive file_answer (o : os) (url root p : bytes) (head : bool) : response -> Prop :=
| file_no_root : (forall l0, ~ root_at o root l0) -> file_answer o url root p head (Response 403 [] [])
| file_outside : forall l0 rel l, root_at o root l0 -> asks url p rel -> leads_to o l0 rel l -> ~ below l0 l ->
    file_answer o url root p head (Response 403 [] [])
| file_found : forall l0 rel (d : location) (name : bytes) io b t r, root_at o root l0 -> asks url p rel ->
    leads_to o l0 rel (d ++ [name]) -> below l0 (d ++ [name]) ->
    os_fs o (d ++ [name]) = Some (EFile true io b) -> type_of_name name t -> file_content head io t b r ->
    file_answer o url root p head r
| file_unreadable : forall l0 rel l, root_at o root l0 -> asks url p rel -> leads_to o l0 rel l -> below l0 l ->
    (forall io b, os_fs o l <> Some (EFile true io b)) -> file_answer o url root p head (Response 404 [] [])
| file_barred : forall l0 rel, root_at o root l0 -> asks url p rel -> (forall l, ~ leads_to o l0 rel l) ->
    (forall q, ~ textual o l0 rel q) -> file_answer o url root p head (Response 403 [] [])
| file_text_outside : forall l0 rel q, root_at o root l0 -> asks url p rel -> textual o l0 rel q -> ~ below l0 q ->
    file_answer o url root p head (Response 403 [] [])
| file_text_found : forall l0 rel (q : list bytes) (name : bytes) l io b t r, root_at o root l0 -> asks url p rel ->
    textual o l0 rel (q ++ [name]) -> below l0 (q ++ [name]) -> stands_at o (q ++ [name]) l ->
    os_fs o l = Some (EFile true io b) -> type_of_name name t -> file_content head io t b r ->
    file_answer o url root p head r
| file_text_missing : forall l0 rel q, root_at o root l0 -> asks url p rel -> textual o l0 rel q -> below l0 q ->
    (forall l io b, stands_at o q l -> os_fs o l <> Some (EFile true io b)) ->
    file_answer o url root p head (Response 404 [] []).

(** ** Everything else *)
Definition GET : bytes := str "GET".
Definition HEAD : bytes := str "HEAD".
(** The routes of the tests (test_routes.cpp); [nnp]: the process cannot gain privileges. *)
Inductive test_answer (nnp : bool) : bytes -> response -> Prop :=
| test_ok : test_answer nnp (str "/_tests/ok") (Response 200 [] [])
| test_no_content : test_answer nnp (str "/_tests/no_content") (Response 204 [] [])
| test_privs : test_answer nnp (str "/_tests/no_new_privs") (Response (if nnp then 200 else 500) [] [])
| test_medium : forall b, lenZ b = 131072 -> Forall (fun c => c = 65) b -> test_answer nnp (str "/_tests/medium_body") (Response 200 [] b)
| test_large : forall b, lenZ b = 2097152 -> Forall (fun c => c = 65) b -> test_answer nnp (str "/_tests/large_body") (Response 200 [] b).

Section Answer.
  Variable page : stats -> Z -> bytes.
  Variable a : args.
  Variable o : os.
  Variable nnp : bool.

  (** Requests with a handler of their own. *)
  Definition own_route (p m : bytes) : Prop :=
    m = GET /\ ((a_status_page a = true /\ p = str "/_ion/status") \/ (a_under_test a = true /\ exists r, test_answer nnp p r)).
  (** Requests for published files. *)
  Definition published (url root p m : bytes) : Prop :=
    a_static_map a = [url; root] /\ (m = GET \/ m = HEAD) /\ exists rest, p = url ++ rest.

  Inductive first_answer (p m : bytes) : response -> Prop :=
  | first_status : forall st now, a_status_page a = true -> m = GET -> p = str "/_ion/status" ->
      first_answer p m (Response 200 [Hdr (str "content-type") (str "text/html; charset=utf-8"); Hdr (str "cache-control") (str "no-store")] (page st now))
  | first_test : forall r, a_under_test a = true -> m = GET -> test_answer nnp p r -> first_answer p m r
  | first_file : forall url root r, ~ own_route p m -> published url root p m ->
      file_answer o url root p (bytes_eqb m HEAD) r -> first_answer p m r
  | first_nothing : ~ own_route p m -> (forall url root, ~ published url root p m) -> first_answer p m (Response 404 [] []).

  (** The file at [path], if it can be read to its end. *)
  Definition readable (path : bytes) (l : location) (b : bytes) : Prop :=
    path <> [] /\ resolves (os_fs o) (os_links o) (if absolute path then [] else os_cwd o) (elements path) l /\
    os_fs o l = Some (EFile true true b).
  (** With a page for 404 configured, it replaces the body and the content type. *)
  Inductive program_answer (p m : bytes) : response -> Prop :=
  | program_same : forall r, first_answer p m r -> a_status_404_file_path a = [] \/ rs_status r <> 404 -> program_answer p m r
  | program_page : forall r l b t, first_answer p m r -> a_status_404_file_path a <> [] -> rs_status r = 404 ->
      readable (a_status_404_file_path a) l b -> type_of_name (a_status_404_file_path a) t ->
      program_answer p m (Response 404 [Hdr (str "content-type") t] b)
  | program_no_page : forall r, first_answer p m r -> a_status_404_file_path a <> [] -> rs_status r = 404 ->
      (forall l b, ~ readable (a_status_404_file_path a) l b) -> program_answer p m (Response 404 [] []).
End Answer.

(** A command line and surroundings as they can be: arguments have no NUL octet, the
    working directory exists. *)
Definition args_ok (a : args) (o : os) : Prop :=
  real_place (os_fs o) (os_cwd o) /\ ~ In 0 (a_status_404_file_path a) /\
  forall url root, a_static_map a = [url; root] -> ~ In 0 root.
(** Files and the status page fit in memory. *)
Definition files_fit (page : stats -> Z -> bytes) (o : os) : Prop :=
  (forall st now, lenZ (page st now) < 2 ^ 64) /\ forall l r io b, os_fs o l = Some (EFile r io b) -> lenZ b < 2 ^ 64.
